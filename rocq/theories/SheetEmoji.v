(** GENERATED by tools/gen_sheets.py -- do not edit.
    Pixels of a sprite sheet, one number for each row; bit x is set when the
    pixel in column x is black. *)
From Verif Require Import Prim.

Definition emoji_rows_0 : list N :=
  [0x12492490092492480492492012492490092492480492492012492490092492480492492012492490092492480492492012492490092492480000000000000000;
   0x2db6db6c36db6db65b6db6d82db6db6c36db6db65b6db6d82db6db6c36db6db65b6db6da6db6db6c36db6db65b6db6da6db6db6c36db6db60124924004924920;
   0xb6db6db65b6db6db6db6db6cb6db6db65b6db6db6db6db6cb6db6db65b6db6db6db6db6cb6db6db65b6db6db6db6db6cb6db6db65b6db6db0492c92002492480;
   0x924924927fffffff2492492492492492492492496db6db6c92492492492492497ffffffefffffffe5b6db6db7ffffffefffffffe7fffffff0000000000000000;
   0x6db6db6cb6db6db65b6db6db6db6db6cb6db6db65b6db6db6db6db6cb6db6db65b6db6db6db6db6cb6db6db65b6db6db6db6db6cb6db6db6092592400492c920;
   0xb6db6db65b6db6db6db6db6cb6db6db65b6db6db6db6db6cb6db6db65b6db6db6db6db6cb6db6db65b6db6db6db6db6cb6db6db65b6db6db0492492002492490;
   0x924924927fffffff2492492492492492492492496d92492c92492492492492497f97417efffffdfe5b6496db7ff00ffefff925fe7ffc3fff0092490000018000;
   0x6db6db6cb6db6db65b6db6db6db6db6cb6db6db65b24965b6db6db6cb6db6db65b25925b6c96d96cb6c925b65b6496db6db24b6cb6d92db6096496c00492c920;
   0xb6db6db65b6db6db65b2c82cb20b2d965b6db6db6c00082cb6db6db65b6db6db6d86002cb00360b65b0002db6d80016cb6c001b65b6c16db04925b6002492490;
   0x9240248249fcbe4f2082400490010482492492496c00080c92492492492492497f82000ef001e03e5b0003db7f8001feffc001fe7ff01fff0412496000498000;
   0x65924b6492d92d965965924b6492cb24b6db6db6592d965b6492c924b6db6db65b24b64b6492d92cb64b65b65b25b2db6d92c96cb6d92db6092c924005b6d920;
   0xb20865824060860360b20b04b2c10d82486000c16c16082c800100025b25924b6d86db04b2c360365b0582db6c06d06cb6c361b65b6096db0492592003c96d90;
   0x92082482482182412402090492410402482000416036080c90402092490482017f83ff06e0c1e01e5b0583db7c1ff87effc1e1fe7fe087ff0012480002c18700;
   0x65964b64b64b65b25b2596cb6db2cb24965b6492596d965b6cb25964b25924b25b25b6cb65b2cb2cb64b65b65b2db25b6db2c96cb6c925b6092492400592cb20;
   0xb21865825825b2c16c021b6492580c02482580c160b6082c90c92092592030d96d86db04b04365965b0582db6c16d82cb6c001b65b6186db0496492002c92490;
   0x920824824007e20124020920804804024824000160b6080c80010002482010497f83ff86f00187865b0583db7c1ff83effc001fe7fe183ff0002400000418600;
   0x65924b6492cb64965b2596cb64b24964924b2492596d965b6492c924b2592cb25b25b6cb6492cb2cb6c925b65b2db25b6d92496cb6cb65b60924924004b6cb20;
   0xb2c865824b65b25b6c120b6482d900824105805960b6082cb0d900b2592030d96d86db04824305865b0002db6c16d82cb6c121b65b4582db04924920025b6c90;
   0x924820820f67c07b2002090482410082410480416036080c90410092412010417f83ff0683c100065b6003db7c1ff83eff03e1fe7f8003ff0013c8000001a400;
   0x65b64924964924b2596596cb65b2cb64b2cb24b2596d965b64925964924b25965b25b6cb65b24924b6db25b65b2db25b6d96c96cb6c925b6092d92400492c920;
   0xb2d860064020060160b2c104b0410582430400d96c16082c800121b24b25924b6d86db0482c300025b6d82db6c06d06cb60b61b65b0000db0496592002492490;
   0x9248201240341e012082400490010482492492496c12080c924924924924924964820806800104825b6d83db7e02c07eff0161fe7f0000ff0016580000018000;
   0x6db6db6cb6db6db64b65b25b6c96cb64b6db6db65924965b6db6db6cb6db6db64924924b64925b64b6db65b65b2492db6d92496cb64b64b6092db2400492c920;
   0xb6db6db65b6db6db6db6d96cb65b6db65b6db6db6c00082cb6db6db65b6db6db6006002cb0032da25b6d82db6d80016cb6c001b65b0db05b0496d92002492490;
   0x924924927fffffff2492492492492492492492496c80082c92492492492492496006003ef24b3ff25b6d83db7f8003feffc001fe7f0ff07f04bedd6000018000;
   0x6db6db6cb6db6db65b6db6db6db6db6cb6db6db65b64965b6db6db6cb6db6db65b6d92db6db6db6cb6db65b65b6496db6db6db6cb6db6db60b6db6c00492c920;
   0xb6db6db65b6db6db6db6db6cb6db6db65b6db6db6db6db6cb6db6db65b6db6db6db6db6cb6db6db65b6db6db6db6db6cb6db6db65b6db6db05b2cb2002492490;
   0x924924927fffffff2492492492492492492492496db6db6c92492492492492497ffffffefffffffe5b6dbedb7ffffffefffffffe7fffffff0092c90000010000;
   0x6db6db6cb6db6db65b6db6db6db6db6cb6db6db65b6db6db6db6db6cb6db6db65b6db6db6db6db6cb6db6db65b6db6db6db6db6cb6db6db6092592400492c920;
   0xb6db6db65b6db6db6db6db6cb6db6db65b6db6db6db6db6cb6db6db65b6db6db6db6db6cb6db6db65b6db6db6db6db6cb6db6db65b6db6db0492492002492480;
   0x124924927ffffffc2492492412492492492492482db6db6c12492492492492483ffffffc3ffffffe5b6db6d83ffffffc3ffffffe7ffffffc0000000000000000;
   0x2492492416db6db00924924824924924124924900924924824924924124924900b6db6d82db6db64124924900b6db6d82db6db6416db6db00124924000924900;
   0x12492490;
   0x12492490;
   0x6db6db6c;
   0x92492492;
   0x12000000000000000000000000012492492;
   0x2db6db6c36db6db25b6db6d82db6db6c16db6db25b6db6d82db6db6c36db6db65b6db6d82db6db643ffffffe5b6db7f82db6db6c36c925b65b6db6d86db6db6c;
   0x36db6d967ffeb2ca6db6db6c3ffffffe492492486db6db6c36db6db67fffffff6db6db6cffff6d967ffffffe6db6dffe36db6db65b6497ff7ffe5b2c92492492;
   0x924924927c7f931b7ffffffe07fffffe492492487ffffffefffffffe7fffffff7ffffffeffff25967fffffff6dbffffeb6db6dfe7fe007ff7fff1b2e10082482;
   0x6db6db6cb6db25965b6db6db25b6db6db6db6db65b6db6db6db6db6db6db6db6db6db6db6db64b24bffb6ffe5b6db7ff6db6db6db6c925b6db6d92cb64965b64;
   0xb6db6db27fffb6db6db6db6c105ffffe492492496db21b6cb6db6db67fffffff6dfeff6cffff6db67ffcbfff6db6dfffb6db6db65b6497ff7ffedb6c80010482;
   0x924924b24fffffff7ffffffe100bfffe492492487f900ffefff9fffe7fffffff7ffffffefffffffe7ffc9fff6db7fffeb6db6dfe7fe007ff7ffffffe12000482;
   0x6db6db6c96db6db65b6db6db2d92db6d924924925b2496db6db6db6db6db6db6db7dbedb6cb6db6cb7d92ff65b6db6ff6db6db6db6c925b6db6db6db6d924b24;
   0xb6db6db65fef92cb2492492416c82ffe492492486d800b2cb6db6db67fffffff6dbfff6cc00f25927fe497ff6d9259ff924925b65b6497ff7ffe432492410482;
   0x924924927fcf83430000000017c005fe000580007f80003effcb3ffe7fffffff7ffffffec20f65b27fe497ff6d9819fe000000fe7fe497ff7edfcb2612010482;
   0x6db6db6cb6db2db2492492492d92496d924b64925b2492db6db65b6db6db6db6db7ffedb6496db6cb6db6db65b2d96ff2492496db6cb25b6db6d96d96492cb24;
   0xb6db6db67bffbbf824924924164924964924b2486c80016cb6cf6db67fffffff6dbfff6cc24f3db67f6db6ff6d92c9ff124924b65b6497ff7dbe5b6c90010412;
   0x924924927fffffff000000000600001e0004b0007e00007effcfbffe7fffffff7ffffffec00ffffe7fedb7ff6d9249fe000000fe7fe497ff649ffffe00090002;
   0x6db6db6cb6db6db6492492492cb2496d924b64925b2492db7ff6dfffb6db6db6db6ff6db6596db6db6db6db65b2cb6ff2492496db6cb65b6d92db6db64b6c92c;
   0xb6db6db67fffffff24924924124925fe492592486c00016cffcb7ffe7fffffff6dffff6cf24ffffe7fe497ff6d92d9ff000000b65b6497ff6d97fffe82492012;
   0x124924927fffffff0000000002402ffe000080007f0001fefff9fffe7fffffff7ffffffef00ffffe7fe003ff6d9249fe924925fe7fe497ff6db7fffe02492012;
   0x24924924b6db6cb65b6db6db2592db6d924924925b2492db7ff6dfffb6db6db6db6ff6db6496db6db6d92db65b6493ff7fffff6db6c925b6db6db6db25b6c92c;
   0x924924927ffffe7f6db6db6c120bfffe492492496d804b6cffdf6ffe492492496db7db6cf25ffffe7fe017ff6db00fffffffffb65b6497ff6cb7fffe82412012;
   0x924924927f7ffe7f7ffffffe005ffffe492492487f80fffeffdffffe492492487ffffffefe7ffffe7ff81fff6db00ffefffffffe7fe007ff67f7fffe00012012;
   0x24924924b6db6db65b6db6db25b6db6db6db6db65b64b6db7fffffffb6db6db6db6db6db6db6db6db6d92db65b6597ff7fffff6db6c925b6db6db6db6492d96c;
   0x924924927f7fffff6db6db6c17fffffe492492496db2db6cfffffffe492492496db6db6cfffffffe7ffc3fff6db6dffeffffffb65b6497ff7ffffffe90092492;
   0x124924927ffffffe7ffffffc1ffffffe492492487ffffffc7ffffffe492492487ffffffc7ffffffe7ffc3ffe6dbffffe7ffffffe7fe007fe7ffffffe12492492;
   0x2db6db6c36db6db65b6db6d82db6db6c16db6db25b6db6d83ffffffc16db6db25b6db6d82db6db6c36db6db65b6db7f83fffff6c36c925b65b6db6d86db6db6c;
   0x92492480000000012492490000000000000000012492490000000000492492012492490092492480012492012492490090002480492492092492492;
   0x12492492;
   0x6db6db6c;
   0x12492492;
   0x0].
Definition emoji_rows_1 : list N :=
  [0x124924900000000000000000;
   0x5b6db6d80000000000000000;
   0x492492480000000000000000;
   0xb6db6db60000000000000000;
   0x24924900000000004920920000000000000000004924920124924000000000000000000024004900924924004800120120000105b6db6db0000000012482090;
   0x3ffffffc000000003ffedb2400000000092496d80ffffff03ffffc00000000003ffffffc3fc007fe1ffffff83ff24ffc3e4927be49249249249249243fff35fe;
   0x6db6db6c124924925b6db6cb2492492412492db64b6db6c86db6d924124924925b6db6db6db24bfcb6db6db65b6496db6d924b6cb6d92db65b6db6db6db65b6c;
   0xb6db6db6492492486db65b2e12492492492496db25ffff64ffffec92492492486db6db6cb6c927fe5b6db6db7ff24bfefe492cfe5b6c16db6db6db6cb6db35b6;
   0xfffffffe000080007ffe0b2400092000492496db20ffff04fffffc00000000007ffffffeffc007fe7fffffff7ff24ffefe492cfe4920124924924924ffff37fe;
   0x6db6db6d92492492db6db6db2492c92492492db6596db65b6db6db24924924925b6db6db6db24bffb6db6db6db6496db6d925b6db6d92db65b6db6db6db65b6d;
   0xb6db6db6492592486db6db6c124b6492492496db6c3e582cfffffc92492492486db6db6cb6c927fe5b6db6db7ff24bfefe4925fe5b6016db6db6db6cb6db35b6;
   0x92492492000180006dbe4ba4000b6000492496db24100824fffff000000000007ffffffeffc007fe7fffffff7ff24ffefe493ffe492002496db6db6cffff37fe;
   0x24924924924b6492cb2db2cb2496d92492492db65b2592db6db6d924924924925b6db6db6db24bffb6db6db6db6db6db6d925b6db6c925b6db6db6db6db65b6c;
   0x124b64924925b25f619ecb27125b6c92492496db6d92cb6cfffffd925b6db6db6db6db6cb6c927fe5b6db6db7ff6fbfefe496ffe5b6186db7ffedffe12493492;
   0x9e000004093ff659ecb24001f7800492496db24800124fffffc005b6db6db7ffe5ffeffc007fe7fffffff7ff6effefe49fffe492082497ff3cffeb6db7db6;
   0x2496d92492596dfecb6db6db2496592492492db65b6492db6db6d924b6db6db65b6cb6db6db24bffb6db6db6db65b6db6d92db6db6cb65b6db65b6db6db6db6d;
   0x124b6492482dffff659edb6c125b6c925b6db6db6d924b6cffffec925b6db6db6db65b6cb6c927fe5b6db6db7ff6cbfefe4b3ffe5b6582db7ff3cffefffffffe;
   0x92000017ffff8659ffffe000930007ffff6db24866124fffffc005b6db6db6db65b6cffc007fe7fffffff7ff3cffefe4bfffe490082497ff3cffeb6db7db6;
   0x2496d92496db6d92cb2db6db2496d924b6db6db65b64b2db6db6db24b6db6db65b6db6db6db24bffb6db6db6db6596db6d96db6db6c925b6db6d96db24925924;
   0x124924927ffdb6486cbedb6c12cb61925b6db6db6d92496cfffffc925b6db6db6db6db6cb6c927fe5b6db6db7ff2cbfefe4f7ffe5b0002db7ffedffeb6db35b6;
   0x924924927ffd90007cfffffe000360007ffff6db24100824fffff0007fffffff6db6db6cffc007fe7fffffff7ff24ffefe49fffe490000496db6db6cffff37fe;
   0x6db6db6cffdb6c92db6db6db2492c924b6db6db6592db65b6db6d924b6db6db65b6db6db6db24bffb6db6db6db6496db6d96db6db64924b65b6db6db6db65b6d;
   0xb6db6db6fb2db2486fb6db6c124924925b6db6db64bffb2cfffffd925b6db6db6db6db6cb6c927fe5b6db6db7ff24bfefe5bfffe5b05b05b6db6db6cb6db35b6;
   0xb6db6db6480480007ffffffe000000007ffff6db20ffff04fffffc007fffffff6db6db6cffc007fe7fffffff7ff24ffefe6ffffe4904904924924924ffff37fe;
   0x6db6db6c92492492db6db6db24924924b6db6db64b6db6cb6db6d924b6db6db65b6db6db6db24bffb6db6db6db6496db6db6db6db65b64b65b6db6db6db65b6d;
   0x36db6db6492492486db6db6c124924905b6db6da27ffffe43fffec905b6db6da6db6db6c36c927fe5b6db6da7ff24bfe3edbfffe5b2db2db6db6db6c36db35b6;
   0x36db6db4000000003ffffffc000000005ffff6d80ffffff03ffffc005ffffff8249249243fc007fe1ffffff83ff24ffc3edffffe49249249249249243fff35fe;
   0x24924924000000000924924800000000124924900924924824924900124924900924924824800124124924900920024824924924b6db6db60924924824924924;
   0x5b6db6db0000000000000000;
   0x492492480000000000000000;
   0x36db6db60000000000000000;
   0x92492480000000000000000;
   0x92492480000000000000000000000000000000000000000000000000000000000000000;
   0x36db6db60000000000000000000000000000000000000000000000000000000000000000;
   0x5b6db6db0000000000000000000000000000000000000000000000000000000000000000;
   0x492492490000000000000000000000000000000000000000000000000000000000000000;
   0x4800120004924800024924824924924124924900924924824800124b6db6db60924924824924920124924900924904800000000124924900924924800000000;
   0x36c925b2036db6c024b6db6c3fff7fbe4b6db6d82db6db6c36c921b65b6db6db2db6db6c36db6d92092492482db6d96c124924905b6db6d82db6db6c02492490;
   0x36c0049203ffffc06016db6c7fffff9e796db6d86db6db2c3f8001fe492492497ffffffe3ffffff2492492487fffd9fc024924904924924e2db65b6c70000090;
   0x6db24b6c06db6db0592db6db6db6db2db6db6db65b6db6cb6d92496cb6d925b6db6db6db6db6db64b6db6db65b6d96db64924924b6db6db65b6cb6db6c924924;
   0xb6c925b60b6db6c06496db6cffffff9e7f2db6db6db6d964b6c925b65b6002db7ff24bfeb6db6db2492492496db6d96cb24124925b6db6df6db25b6cfe492492;
   0xb6c0049207fdbfe07c02db6cffffffbe7fadb64b6db6d964ff8101fe492002497fd00bfeffffffd2492492487fffd9fe90002492492492ff6db00b6cfe000d92;
   0x6db24b6c06d92db0db25b6db6db6db6cb6db6d96596db2db6d92c96db6c965b6db65b6db6db6db64b6db6db65b6d96db6c924924b6db6dfe5b65b6db6d925964;
   0xb6c925b60b6c36c06c92db6c0003e0004bedb64b6db6d964b6cb65b65b6182db7f96d9feb6db6db6492492496db6d96cb20124925b6db7ff6d97f96cffc924b2;
   0xb6c0049207fc3fe07f805b6c0003e0004bfcb64b6db25824ff83e1fe490082497f8e49feffffffd6492492487fffd9feb0402492492497ff6c9ff96cffe06fa0;
   0x6db24b6c06d92db0db64b6db2496c924b6db6db65b6db64b6d92d96db6c965b6db2d96db6db6db6c924924925b6d96db6492492492492ffe5b2db25b6db2cb24;
   0xb6c925b60b6412c06d925b6c1243e4925b7f96db6db6db2cb6db6db65b6002db7e96497eb6db6db25b6db6db24925924b00104924924bfff6cb6492cfff96db2;
   0xb6c0049207c003e07ff00b6c0003e0005b2ff2db6596cb2cffdffdfe492002497e80417effffffd27fffffff7ffffffeb20000920000ffff60305804ffff2400;
   0x6db24b6c06c925b0db6c96db6db6db6cb6cb6db65b6d96db6db6d96db6c925b6db24b2db6db6db6cfffffffedb6db6db6d92492492497ffe5925b64b6db6d964;
   0xb6c925b60b6412c06db24b6cb6dbedb65b65fe5b6db6db6cb6db6db65b0082db7e92497eb6db6db25b6db6db24925924b6c124924924bfff6c97f92cffffed92;
   0xb6c0049207fc3fe07ffe016cb6dfedb65b6cff5b6db61b6cff8fe1fe490482497f82417effffffd20000000024925924b641209200001fff6c17f82cffffe600;
   0x6db24b6c06d92db0db6d92db6db6db6cb6db6db65b6cb6db6d96c96db64b65b6db2db2db6db6db6c92492492db6d96db6c96c92492492ffe5b2db2db6db6d924;
   0xb6c925b60b6c36c06db6496cb6dbedb65b6d97db6db6db6cb6c925b65b0582db7f9249feb6db6db6492492496db6d96cb61b00925b6db7ff6d96d96cfffffc92;
   0xb6c0049207fc3fe07fffc02c124be4925b6d97f86cb6db6cff8101fe490082497f8241fe12492492492492487fffd9feb65b2402492492ff6d92c96cffffff80;
   0x6db24b6c06db6db0db6db25b2496c924b6db6db6596db6db6d92496db6c925b6db6c96db6db6db6cb6db6db65b6d96db6db6c924b6db6dbe5b6496db6db6db64;
   0xb6c925b60b6db6c06db6c92c124be4925b6db6ff6db6db6cb6c925b65b0002db7ff24bfeb6db6d92492492496db6d96cb6db0c825b6db6df6db25b6cfffffff2;
   0xb6c0049207ffffe07ffff804124be4925b6db65f6db6db6cff8001fe492002497ffe5ffe12492492492492487fffd9feb6db05924924925f6db25b6cfffffff0;
   0x6db24b6c06db6da05b6db64b2496c924b6db6d965b6db6db6d92496cb6d925b65b6db6db6db6db6cb6db6db65b6d96db6db6cb6cb6db6db65b6db6db6db6db6c;
   0x36c925b2036db6c02db6d924124b64905b6db6c82db6db6c36c921b65b6db6db2db6db6c16db6d90092492482db6d96c36db6db45b6db6d82db6db6c3ffffffe;
   0x492492490000000000000000000000000000000000000000000000000000000000000000;
   0xb6db6db60000000000000000000000000000000000000000000000000000000000000000;
   0x5b6db6db0000000000000000000000000000000000000000000000000000000000000000;
   0x492492480000000000000000000000000000000000000000000000000000000000000000;
   0x124924900000000000000000000000000000000000000000000000000000000000000000].
Definition emoji_rows_2 : list N :=
  [0x2492492400000000000000000000000000000000000000000000000000000000000000000000000000000000000000000000000000000000;
   0x2492492400000000000000000000000000000000000000000000000000000000000000000000000000000000000000000000000000000000;
   0x5b6db6db00000000000000000000000000000000000000000000000000000000000000000000000000000000000000000000000000000000;
   0x6db6db6c00000000000000000000000000000000000000000000000000000000000000000000000000000000000000000000000000000000;
   0x2492492400000000000000000000000000000000000000000000000000000000000000000000000000000000000000000000000000000000;
   0x2cb2db643ffffffe5b6db6db24924924124924905b6db6d82db6db6c36db6db65b6db6d82db6db6c36c925b6492492482db6db6c125b6db6092496d82db6db64;
   0xbefb6d967fffffff6d925b6c12492496092492486db6db6cbffffff67ffffffe7ffffffcbffffffe5b6497ff2492492436db6db6492db6da24924b6cffff6d96;
   0xf34f25967fffffff248009240000001e0000000065b6db7efffffff67fffffff7ffffffefffffffe7fe007ff24924924fffffffe003ffedb00000ffeffff2596;
   0x2592cb24fffffffe5b2496db2492492d924924925b6db6db6db6db65b6db6db6db6db6db24924924b6c925b6492492496db6db6d925b6db6492496db6db64b24;
   0x96596db6ffffffff6d80036c124924b64924924864b6db7efffffff67fffffff2492496c000000005b6497ff24924924b6db6db6492db6db24924b2cfeff6db6;
   0xfe4ffffe7fffffff24820124000000fe0020000065b6dbfeffffffbe7fffffff000001fe000000007fe007ff24924924ffffffbe003ffedb00000f0efa5ffffe;
   0x6596db6cfffffffe5b6d92db24924b6d924924924b6db6db6db6db2db6db6db6492492db6db6db6cb6c925b6492492496db6db2d925b6db6492496db6db6db6c;
   0x124925927fffffff6db6c16c124925b64924924865b6df3effffffbe7fffffff00000b6cfffffdbe5b6497ff24924924b6db6c96492db6db24924b6cf7ff2592;
   0x9ef965b27fffffff2492412400000ffe0004800064925f3efffffffe7fffffff24925ffefffffc1e7fe007ff24924924fffffe9e003ffedb00000ffefffb65b2;
   0x6db6db6cb6db6db65b6db2db24925b6d924b6c925b6cb6db6db6db6db6db6db6db6db6db6db6d92db6c925b6492492496db6db2d925b6db6492496db6db2db6c;
   0x924b3db65b6db6db6db6c16c12496db6492492486db2dffefffffffe7fffbeff7fffdb0cfffffc9e5b6497ff24924924b6db6db6492cb6db24924b6cbffb3db6;
   0x100861967fffffff24924024fffffffe000090006db25dfefffffffe7ffffeff7fffff0efffffc9e7fe007ff7ffffffefffffffe003c3edb6db6dffe9ffbfffe;
   0x6db6db6db6db6db65b6db2db6db6db6d924924925b6db6db6db6db6d92492492db6db6db6db6d96db6c925b6db6db6db6db6db6d925b6db6db6db6db6db6db6d;
   0xf2cb2cb25b6db6db6db6c16cb6db6db6492492486db659e6b6db6db6492492496db6df6cfffffcbe5b6497ff6db6db6cb6db6db6492db6db6db6db6cfffbfffe;
   0x24000107fffffff24924124fffffffe000410006dbffffe000000007fffffff00000ffefffffebe7fe007ff7ffffffefffffffe003ffedb7ffffffedffbfffe;
   0x2cb2db6cb6db6db65b6d92db6db6db6d924b24925b6db6db24924924b6db6db6492492db6db6db6cb6c925b6db6db6db6db6db6d925b6db6db6db6db65b6db6d;
   0xfe5ffffe492492486d92416cb6db6db6492492486dfffffe12492492492492480000016c000000005b6497ff6db6db6cb6db6db6492db6db6db6db6cf6dffffe;
   0xb24b2c304924924824800124fffffffe000000006dfffffefffffffe000400402492497e000000007fe007ff7ffffffefffffffe003ffedb7ffffffefefffffe;
   0x24924924924924925b2496db6db6db6d924924925b6db6db6db6db6db6db6db6db6db6db24924924b6c925b6db6db6db6db6db6d925b6db6db6db6db6db6db6d;
   0x9ef9e596492492486d800b6cb6db6db6492492486fffff3efffffffe7fffb6ff7ffffffcfffffffe5b6497ff6db6db6cb6db6db6492db6db6db6db6cfffffffe;
   0x77dffffe49249248249049247ffffffe000000003ffffffe7ffffffe7ffff7fe7ffffffe7ffffffe7fe007fe7ffffffe3ffffffe003ffed87ffffffc7ffffffe;
   0x25965924124924925b6db6db2db6db6c124924905b6db6d82db6db6c36db6db65b6db6d82db6db6c36c925b65b6db6d82db6db6c125b6db65b6db6d82db6db6c;
   0x6db6db6c12492490000000000492492012492490092492480492492012492490000002480492492002492490000490000492492012492490;
   0x2492492400000000000000000000000000000000000000000000000000000000000000000000000000000000000000000000000000000000;
   0x5b6db6db00000000000000000000000000000000000000000000000000000000000000000000000000000000000000000000000000000000;
   0x2db6db6c00000000000000000000000000000000000000000000000000000000000000000000000000000000000000000000000000000000;
   0x492492000000000000000000000000000000000000000000000000000000000000000000000000000000000000000000000000000000000;
   0x24924924000000000000000000000000000000000000000000000000000000000000000000000000124924900000000000000000000000000000000000000000;
   0x36db6db60000000000000000000000000000000000000000000000000000000000000000000000005b6db6d80000000000000000000000000000000000000000;
   0x12492492000000000000000000000000000000000000000000000000000000000000000000000000492492480000000000000000000000000000000000000000;
   0x6db6db6c000000000000000000000000000000000000000000000000000000000000000000000000b6db6db60000000000000000000000000000000000000000;
   0xb6db6db60924924800000000124924900000000004924920124924900000000000000000124924905b6db6db0000492000000490092092400492412000000000;
   0x924924927ffffffc2db6db6c3ffffffe092492483ffffffc3ffffffe09249248000000003ffffffe492492490000fffc3ff83ffe1ffd9ff83fffc3fc12492490;
   0x6db24b6cb6db6db65b6db6db6db6db6cb6db6db67fffffff6db6db6cb6db6db6492492486db6db6cb6db25b64924b6db6db65b6cb6d92db65b6db2db6db6db64;
   0xb6c005b67fffffff6db6db6cfffffffe5b6db6df7ffffffefffffffe5b6db6db24924924fffffffe5b6000db2492db6cb6d93ffe5b6d96db7fffcbfe92492492;
   0x924004927ffeffff6db7fb6cfffffffe492497ff7ffffffefffffffe4924924900000000fffffffe492000490000fffefff83ffe7ffd9fff7fffc3fe12492480;
   0x6db24b6cb6db6db65b6db6db6db6db6db6db6db6fffffffb6db6db6db6db6db64924b2496db6db6db6c924b64925b6db6db65b6db6d92db6db6db2db6db6db24;
   0xb6d905b67feff7ff6db6db6cb6db6db65b6db6ff7ffffffefffffffe5b6db6db2496d924b6db6db65b0090db2496db6cb6d93ffe5b6d96db7fffcbfe92492492;
   0x924904927fffffff24b64f2412492492492ff27f7ffffffe92496492492492490012c80012492492490490490010fffefff83ffe7ffdbfff7fffc3fe12492400;
   0x6db6cb6cb6db6db6496db64924925b24b6db6db6492492db24924924b6db6db6492c924924925b24b64b64b64924b6db6db65b6db6db6db6db6db2db6db6d924;
   0xb6db05b67f7ffeff24b6db2412492c925b7f92df000201fe12492492ffffffff2492492412492c925b05b0db2492db6c924b6492492db2497fffcbfe92492402;
   0x924004927fffffff00d2cb00124924925fff9acf000281fe000120007fffffff2496692412492492490490490012fffe00016000492fb2482492412412492000;
   0x6db24b6cb6db6db6496db64924924b24b6db6db6492d96db24924924fffffffe5b6cb6db24924b24b64b64b6492cb6db2496c924b6db6db6492492496db6c96c;
   0xb6c005b67f7ffeff24b2db24124925925fffb6cf2496cbfe124b2492ffffffff6db65b6c124925925b0db0db2496df6c124b64925b6db6db00000800b6db24f2;
   0x924004927fffffff00d2db00124924925fff92cf000281fe000120007fffffff7ff66ffe12492492490490490012fffe00036000000cb00024924124924920b0;
   0x6db6cb6cb6db6db6496db64924925b24b6db6d96492592db2492c924fffffffedb6db6db24925b24b64b64b64924b6db6db6db6cb6db6db6db6db2db6db6d924;
   0xb6db05b67f3ffeff24b6db2412496c925b6f96df2492497e12492492ffffffff6db6db6c12496c925b05b0db2490db6cfff93ffe5b6db6db7fffcbfeb6db6492;
   0x924904927fbfffff6df2cf6c12492492492ff27f6db6db7eb6dbedb6492492487ffffffe124924924904b0490010fffefff83ffe7ffdbfff7fffc3fe92492400;
   0x6db6cb6cb6db6db6db6db6db6db6db6cb6db6db65b6db6db7fffffff12492492db6db6db6db6db6cb6c964b6492db6db6db65b6db6d92db6db6db2db6db6db24;
   0xb6c005b67fe7f7ff6db6db6cfffffffe5b6db7ff6db6db6efffffffe492492486db6db6cfffffffe5b0000db2492db6cfff93ffe5b6d96db7fffcbfeb6db6d92;
   0x924004927ffeffff7ffffffefffffffe492497ff6db6db7efffffffe000000007ffffffefffffffe492000490000fffefff83ffe7ffd9fff7fffc3fe92492480;
   0x6d924b6cb6db6db6db6db6db6db6db6db6db6db65b6db6db7fffffff124924925b6db6db6db6db6db6d924b64924b6db6db65b6db6d92db65b6db2db6db6db64;
   0xb6c92db67fffffff6db6db6c3ffffffe5b6db6da6db6db6cfffffffe092492486db6db6c3ffffffe5b6c92db2492db6cbff93ffe5b6d96da7fffcbfc36db6db0;
   0x924924927ffffffc3ffffffc3ffffffe092492482db6db6c3ffffffe000000003ffffffc3ffffffe492492490000fffc3ff83ffe1ffd9ff83fffc3fc12492490;
   0x6db6db6c124924900924924824924924124924900924924824924924000000000924924824924924b6db6db60000924824900924124924900924824804924920;
   0xb6db6db60000000000000000000000000000000000000000000000000000000000000000000000005b6db6db0000000000000000000000000000000000000000;
   0x12492492000000000000000000000000000000000000000000000000000000000000000000000000492492480000000000000000000000000000000000000000;
   0x2db6db6c00000000000000000000000000000000000000000000000000000000000000000000000036db6db60000000000000000000000000000000000000000;
   0x12492490000000000000000000000000000000000000000000000000000000000000000000000000092492480000000000000000000000000000000000000000].
Definition emoji_rows_3 : list N :=
  [0x12492490000000000000000000000000000000000000000000000000;
   0x2db6db6c000000000000000000000000000000000000000000000000;
   0xb6db6db6000000000000000000000000000000000000000000000000;
   0x92492492000000000000000000000000000000000000000000000000;
   0x92492480002400012492490000080002492492402412480092492486db6db6c124004900000120004924920124924900924924800004800;
   0x12492490092492482db6db6c124364905b6db6d80492c92036db6db65be5a7c02db6db6cb6db6db65b6497f804925b20124924905fffbaf82492db6412497c90;
   0x7ffffffe0003e0005b6db6d80003c0007f7f7cfe19e7c7c22db6db6c924924927fe007fe00007f00124924927ffe3b4824924b240000fc00;
   0x24924924924924925b6db6db2496c924b6db6db24b2592c86db6db6d16db6d965b6db6db6d924b6cb6c925b64924b6496db6db6cb6db2d965b6db2db2492d924;
   0x124924924925b2486db6db6c124b64925b6db6c82592c964f24924964b25b6596db6db6cb6c005b65b6497ff24925b24924924927fff92c924924b2412497c92;
   0x3c00002592007ffffffe000360005b6db6400783c1e0f249249e41a7c07b6db6db6c924004927fe007ff00007f00124824927b7fb7db2492dbec0000fc00;
   0x2492db24925bec92db6db6db24964924b6db6d924b2592c96d92496db2cb64b65b6db6db6db64b6cb6c925b64924b6496db65b6cb6db6db65b6db6db2492d924;
   0x1249ff92493d9e486db6db6c124b64925b6db6482492c924f6c925b65925b2cb6db6db6cb6db05b65b6497ff24925b2492492492792fb6db2cb2db6c12497c92;
   0x3ff80003d9e002492c924000360005b6db0000003c000f6c925be0007c00024924924924904927fe007ff00007f0012492492782e9340249243240000fc00;
   0x2496db64925b6c92492592496db65b6cb6db64924925b2496db2db6db6db6db6492492496db64b6cb6c925b65b6db6db6db6db6cb25b6db65b6db2db6db6db6c;
   0x124bfff2496db6482492c924b6db6db65b6db2486db6db6cf6db6db65b6db6db24924924b6c805b65b6497ff6db6db6c924924927b6f9ad92592db2cfffffffe;
   0xbffe0003ffe002497e924fe4924fe5b6fd0007ffffffef6d93d9e7fffffff24924924924004927fe007ff7ffffffe12092092610fbb7825925b24fffffffe;
   0x6db2492d925bec924925b2496c92496db6db6492db6db6db6db65b6db6db6db6492492496db24b6cb6c925b65b6db6db6c96d96cb65b6db65b6db6db6db6db6d;
   0xfff9249e497ffe482493c924b6db6db65b6d92486db6db6cf6db6db65b6db6db24924924b6c905b65b6497ff6db6db6c92492492792fffff2db24924fffffffe;
   0xfff8001e006ef60024924924924b64925b6480002493c924f6c9a5be4927f24824924924924904927fe007ff6db6ff6c12492492793fffff259249249249fc92;
   0x6db6492d924b64925b6db6db24964924b6c92492492592496db24b6d924b64925b6db6db6db6cb6cb6c925b64924b6496db6db6cb6db6db65b2db6db2492d924;
   0xffff24be5b6cb6db6db6db6c124b64925b6492482492c924f6c925b65925a64b6db6db6cb6db05b65b6497ff24925b2492492492492fffff2592492412497c92;
   0xffff00fe7ffeffff6db6db6c000360005b0000000103c000f64924be6b07c60f6db6db6c924904927fe007ff00007f0012482492682fffff249249240000fc00;
   0x6db6cb6db6db6db65b6db6db24964924b64924924b2592c96c92496db65b65925b6db6db6db6cb6cb6c925b64924b6496db65b6cb6db6db65b6db6db2492d924;
   0xffffeffe5b6db6db6db6db6c124b6492592492482592c964f24924965825b6c16db6db6cb6db05b65b6497ff24925b24924924927fffffff2492492412497c92;
   0xfffffffe7fffffff6db6db6c00036000480000000003c000f6db6dbe6067c6786db6db6c924904927fe007ff00007f00124924927fffffff249249240000fc00;
   0x6db6db6cb6db6db65b6db6db2496c924b2492492492592486db6db6cb2db6db65b6db6db6db6cb6cb6c925b64924b6486db6db6cb6db6db65b6db6d92492d924;
   0x3edb6db65b6db6d82db6db6c12436490092492480492c92036db6db60be5a7c82db6db6cb6db6db65b6497f804925b20124924905ffffff82492492412497c90;
   0x92492492000000000000000000000000000000000000000000000000;
   0x6db6db6c000000000000000000000000000000000000000000000000;
   0xb6db6db6000000000000000000000000000000000000000000000000;
   0x12492492000000000000000000000000000000000000000000000000;
   0x24924924000000000000000000000000000000000000000000000000;
   0x2492492400000000000000000000000000000000000000000000000000000000000000000000000000000000;
   0x2492492400000000000000000000000000000000000000000000000000000000000000000000000000000000;
   0x5b6db6db00000000000000000000000000000000000000000000000000000000000000000000000000000000;
   0x6db6db6c00000000000000000000000000000000000000000000000000000000000000000000000000000000;
   0x2492492400000000000000000000000000000000000000000000000000000000000000000000000000000000;
   0x2db6db6c36db6db65b6db6d82db6db6436db6db65b6db6db2db6db6c12492db65b6db6d82db24b6c36db6db25b6db6582db6db6c36db6db65b6496d82db6db6c;
   0xfffffffe5b6db6da6db6db6cfeff6d965b6db6da6db24b6c36db6d964924bffe7ffffffc36c925b67ffeb2ca6db6db2c36db6db679ffffdf6db24bfc36db6db6;
   0xfffffffe7fffffff7ffffffefe7f25967fffffff24800924b6db6c1e49249fff7ffffffe124004927fff931b24925f3e1249249679feffdf6d924bfefffffffe;
   0x6db6db6db6db6db6db6db6db6cb64b24b6db6db65b2492db6db6d92d92492db65b6db6db6db24b6cb6db25964924965b6db6db6cb6db6db65b6496db6db6db6d;
   0xfffffffe5b6ff6db6db6db6cfeff6db65b6c36db6d82016cb6db24fe4924bfff7ffefffeb6c925b67f7fb6db24924b2cb6db6db6797cbedf6db24bfeb6db6db6;
   0xfffffffe7feff7ff7ffffffedffffffe7ffc1fff24824124b6d905fe49249fff7ffe7ffe124004927fffffff6db6c000924924b679feffdf6d924bfefffffffe;
   0x6db6db6db6db6db6db6db6db6db6db6cb6d92db65b2db2db6db24b6d92492db65b6db6db6db24b6cb6db6db6db6db2496db6db6cb6db6db65b6496db6db6db6c;
   0xffc107fe492996486d96db6cffcf25925b2496db6db6d86cb6c92ffe4924bfff7ffedffeb6c925b67b7f92cb24924924124924b67fffffff6db24bfe00000000;
   0xffe187fe0020900000000000ffcf65b27f0010ff24924824b2092ffe49249fff7ff2cffe124924927d7f834300000f3e000100b67fffffff6d924bfeb6db6db6;
   0x6db2cb6d924b6492492496496db6db6cb64924b65b25b25b64925b6d92492df65b6db6db6db25b6cb6db2db24924965b2492c96cfffb6fbe5b6496db6db6db6d;
   0xffc927fe4924b24824924924f7ff3db65b0490db6c00d86c82497ffe4924bfff7ff6dffeb6c925b67b7fbbf86db6db2c124925b6ffec96df6db24bfefffffffe;
   0xffcf67fe0021900000000000fffffffe7f6480ff2400482402497ffe4924bfff7ff24ffe124804927b3fffff7fffff3e000101b67fe016ff6d924bfefffffffe;
   0x6db6cb6d92592c92492496496db6db6db6d965b65b25b25b64925b6db6db6df65b6d96db6db65b6cb6db6db6492492492496496cffc925be5b6496db6db6db6d;
   0xb6cb65b64924b24800100800fffffffe5b6496db6c16d86cb6492ffe5b6dbfff7ff6dffeb6cb65b67b6fffff00000000124924b6ffe497ff6db24bfeb6db6db6;
   0xfff92ffe0024300024924924fffffffe7fe407ff24124024b64127fe5b6dbfff7ffa4ffe124124926bffffff24924924000100b67fe003ff6d924bfe00000000;
   0x6db6db6db6d92db6db6db6db6db6db6db6c925b65b2db2db6db24b6db6db6db65b6cb6db6db24b6cb6db6db6db6db6db6db6db6cffc925fe5b6496db6db6db6c;
   0xb6db6db67ffd9fff6db6db6cfffffc3e5b6186db6d82c16cb6d925fe5b6dbfff7ffe5ffeb6c925b67b3fffff6db6db6cb6db6db6ffe497ff6db24bfeb6db6db6;
   0xfffffffe7fffffff7ffffffefefffc3e7fe583ff24800124b6db20fe5b6dbfff7ffe7ffe124004927b3fffff00000000fffffff67fe017ff6d924bfeb6db6db6;
   0x6db6db6db6db6db6db6db6db6cb6db6db6cb65b65b2492db6db6d92db6db6db65b6db6db6db24b6cb6db6db6492492496db6db6cfed92ffe5b6496db6db6db6d;
   0xb6db6db67fffffff6db6db6cfefffffe5b6db6db6d900b6cb6db6c9e5b6dbfff7ffffffeb6c925b67fffffff6db6db6cb6db6db67ffcbfff6db24bfeb6db6db6;
   0x7ffffffe7ffffffe7ffffffc7ffffffe7ffffffe2490092436db6d865b6dbffe7ffffffc124004927ffffffe7ffffffc3ffffffe7ffffffe2d924bfe36db6db6;
   0x2db6db6c36db6db65b6db6d82db6db6c36db6db65b6db6db2db6db6c36db6db65b6db6d82db24b6c36db6db65b6db6d82db6db6c3fff7ffe5b6496d82db6db6c;
   0x12492490092492480492492012492490092492406db6db6c00000000000012480000000000000000092492480000000012492490092492480000012000000000;
   0x2492492400000000000000000000000000000000000000000000000000000000000000000000000000000000;
   0x5b6db6db00000000000000000000000000000000000000000000000000000000000000000000000000000000;
   0x2db6db6c00000000000000000000000000000000000000000000000000000000000000000000000000000000;
   0x492492000000000000000000000000000000000000000000000000000000000000000000000000000000000].
Definition emoji_rows_4 : list N :=
  [0x924924800000000000000000000000000000000000000000000000000000000000000000000000000000000000000000924924800000000;
   0x2db6db6c00000000000000000000000000000000000000000000000000000000000000000000000000000000000000002db6db6c00000000;
   0x2492492400000000000000000000000000000000000000000000000000000000000000000000000000000000000000002492492400000000;
   0x5b6db6db00000000000000000000000000000000000000000000000000000000000000000000000000000000000000005b6db6db00000000;
   0x6db6db6c02400000092480480000000000000000000010000000000012492490000000000000000012492490000000006db6db6c02492490;
   0x12db6d9018000008249249243fc005b07fff99fc249249243ffffffc0820bb60249249243ffffffe00000000248001243ffffffe092db000249249243ffffffc;
   0x25b6db64b64924b65b6cb6db6db24b6cb6db6db65b6db6db6db6db6cb6db6db65b6db6db6db6db6c124924925b6496db6db6db6c125b6c925b2db6db6db6db6c;
   0x92db6d925b2492586db65b6cb6c925b67fff96ff6db6db6cb6db6db65b6f92db24924924b6db6db65b6db6db24924b6cb6db6db6492db0486c16d86cb6db6db6;
   0xf25b6c960f0080f824900924ffc005b67fff9bff24924924fffffffe0920930824924924fffffffe7fffffff24800124fffffffe492ff00024024824fffffffe;
   0x6cb6d92f96cb65b25b6cb6db6db24b6cb6db6db65b6db6db6db6db6c96d96db65b6db6db6db6db6db6db6db65b6496db6db6db6d925b6c925b2db25b6db6db6d;
   0xfe4b64be4b6496c86db41b6cb6c925b67fff96ff6db6db6cb6db6db67b2fb6db24924924b6db2db64924924824924b6cb6db6db6492db0486c16d86cb6db6db6;
   0xfe4b64be01e0970024900924ffc005b67fff9bff2492492492492492412493c924924924ffcb0dfe0000800024800124fffffffe492db00024024024fffffffe;
   0x7f92c97f92592c925b6cb6db6db24b6cb6db6db6492492492492492496c92596492592496db64b6d924924925b6496db6db6db6d925b6c925b2db25b6db6db6c;
   0xffc925fe492cb6486db41b6cb6c925b6492496492492c924124924925f6db2cb2496c924b6cb2db64925b24824924b6cb6db6db6492db0486c12486c00000000;
   0xffe927fe000ff00024900924ffc005b649249e4800024000004120007bef9b5900066000ffe03ffe000ef00024800124fffffffe492cb0002400002400000000;
   0x7ff25fff924b64925b6cb6db6db24b6cb6db6db6492db24924b25924b2cb2db6492db2496db25b6d924b64925b6496db6db6db6c925b6c925b24925b24924924;
   0xfff92ffe4925b2486db41b6cb6c925b65b6db6db2486412412d96c924924b2cb2486d124b6d92db64924b24824924b6c12492492492cb0486c00006c12492492;
   0xffe927fe000ff00024900924ffc005b649249e480002c00000d96d807b2df7df00066000ffff8ffe000ef0002480012400000000492490002400002400000000;
   0x7f92cbff925b6c925b6cb6db6db24b6cb6db2db64925924924924b24b6cb6db64925b2496db6db6d924b64925b6496db24924924925b6c925b2db25b24924924;
   0xff4b64fe496cb6486db41b6cb6c925b67fff96ff2492492412490492492492482492c924b6db2db64921924824924b6c12492492492db0486c16d86c92492492;
   0xfe4b64be01e0170024900924ffc005b67fff9bff24924924b6db6db6493cf3cf24924924fffc7ffe000080002480012400000000492ff00024024024b6db6db6;
   0x7c96d92f92c925925b6cb6db6db24b6cb6db6db6db6db6db7fffffffb65b6db65b6db6db6db6db6d924924925b6496db24924924925b6c925b2db25b6db6db6d;
   0xf25b6c964b6492c86db41b6cb6c925b67fff96ff7ffffffefffffffe492596586db6db6cb6db6db65b6db6db24924b6c12492492492db0486c16d86cb6db6db6;
   0xf25b6c960f0000f824900924ffc005b67fff9bff7ffffffefffffffe082080006db6db6cffff7ffe7fffffff2480012400000000492ff00024124824b6db6db6;
   0x65b6db24b64924b65b6cb6db6db24b6cb6db6db6db6db6db7fffffffb6db6db65b6db6db6db6db6cb6db6db65b6496db24924924925b6c925b2db2db6db6db6c;
   0x12db6d925924925a6db65b6c36c925b67fff96fe7ffffffcfffffffe7befbefa6db6db6c36db6db64924924824924b6c12492490492db0486d96d96c36db6db6;
   0x12db6d9018000008249249243fc005b07fff99fc3ffffffc3ffffffe010412482db6db6c3ffffffe000000002480012400000000092db0002492492416db6db0;
   0x4924920100000005b6db6db24800120124904900924924824924924000000000924924824924924000000000920024800000000000920005b6db6db04924920;
   0x6db6db6c00000000000000000000000000000000000000000000000000000000000000000000000000000000000000006db6db6c00000000;
   0x2492492400000000000000000000000000000000000000000000000000000000000000000000000000000000000000002492492400000000;
   0x5b6db6d800000000000000000000000000000000000000000000000000000000000000000000000000000000000000005b6db6d800000000;
   0x2492492400000000000000000000000000000000000000000000000000000000000000000000000000000000000000002492492400000000;
   0x92492480000000000000000000000000000000000000000000000000000000000000000000000000000000000000000092492480000000000000000;
   0x36db6db6000000000000000000000000000000000000000000000000000000000000000000000000000000000000000036db6db60000000000000000;
   0x5b6db6db00000000000000000000000000000000000000000000000000000000000000000000000000000000000000005b6db6db0000000000000000;
   0x492492490000000000000000000000000000000000000000000000000000000000000000000000000000000000000000492492490000000000000000;
   0x24924924b6db6db60924924824924920124924900000000024924924124924900000000024924924124924900924924824924924b6db6db60000000024924924;
   0x36db6db65b6db6db2db6db6c3fff7db25b6db6d80492492036db6db67f2db6d82492492436db6db65ffffff82db6db6c3ffffffe5b6db6db049249203ffffffe;
   0x7ffffffe49049249249249247fff2d865b6db6de000000007ffffffe7fadb6d8249249247ffffffe7ffffffe7ffffffe7ffffffe49209249000000007ffffffe;
   0x6db6db6db6cb65b65b6db6db6db6db2db6db6db64b2492c86db6db6cffcb6db64924925b6db6db6db6db6db65b6db6db7fffffffb6d96db6492492487fffffed;
   0xfffffffe5b05a2db6db6db64ffff25925b6db6df24924964924924927fe5b6db2492492cfff92ffe7fffffff6db6db6cfffffffe5b60b6db24924924fffffffe;
   0xfffffffe4900804924924924ffff6fb65b6db6ff05800320b6db6db67f6cb6db2492492cfffd3ffe7fffffff7ff25ffeffffeffe4920924900000000fffffffe;
   0x6db6db6db6c965b65b6db6db6cb6db6db6db6dbe4b6492d96db6db6dbfdb6db6492492db6db6db6db6db6db6db6cb6db7ff6cfffb6c96db64925b2497fffff6d;
   0xffff7ffe5b60a2db6db25b64feff6db65b6db6ff2c96c964b6db65b64f0fb6db2492412cfffb7ffe5b6cb6db6db24b6cb6db6db65b60b6db2496d924fffffffe;
   0xfff83ffe4920004924924924ffff2182000000ff0587f120ffff00fe6b2f96db00000324fff93ffe7fec37ff7f924bfe124b649249209249001ff800124927fe;
   0x6db25b6db6d925b65b64b6db6db6cb25924924fe4b2db2c96db6596db6dfedb6492496cb6db65b6db6cb65b6db6cb6db6db6db6db6c96db6492db64924925b6d;
   0xfff80ffe5b6c02db6db25b64f67f2db2492490ff249ff924b6db2cb67b7ff2db24925b60f7d92db65b6432db6d924b6cffff7ffe5b60b6db24b6d92412492fbe;
   0xfff00ffe4924004924924924fa7f3fb6000000ff001ff800fffe7c3e7f3ffa5b00005b20104004107f8003ff7f9249feffff7ffe49209249003ffc0000007f9e;
   0x6db24b6db6d925b65b6cb6db6cb6db6d924924fe492db2496db6596db6dffcb6db6db6db2cb2c924b6c925b6db6db2db6db6fb6db6c96db6492db64924925b2d;
   0xfff80ffe5b6c02db6d924b64f6dffffe492490ff249ff924b6db2cb67feffe5b7fffdb60befbefb65b6492db6d965b6cffff7ffe5b60b6db24b6d92412492f9e;
   0xfff80ffe4920004924924924f2fffffe000000ff001ff840ffff24fe7fe7f2cb7ffffb24f3cf3cb27f0000ff7f9649feffff7ffe49209249001ff80000000ffe;
   0x6db65b6db6c965b65b6db6cb6db6db6d924925fe4b2db2c96db6c96db6d97df6db6db64b24924924b64924b6db65b6db6db65b6cb6c96db6492db24924924b6d;
   0xffff7ffe5b60a2db6db25b64f2cffffe5b6db6ff2c97c964b6db65b67ffcf0f97ffffb2c965965965b2090db6db24b6cb6db6db65b60b6db2496d924b6db6dfe;
   0xfffffffe4900804924924924f2cffffe7fffffff0c824330ffffeffe7fffbbf87fffff2cfffffffe7f6db6ff7ff24bfefffb6ffe492082490003c000b6db6dfe;
   0x6db6db6db64b65b65b6db6db6db6db6db6db6dbe496496d96db6db6cb6db6dfe5b6db6db65965b6cb6db6db6db6db6db6db6db6db6d925b6492492496db6db6d;
   0xfffffffe5b05a2db6db6db64fffffffe7fffffff24924964924924927fffb7ff6db6db6c124924927fffffff6db6db6cb6db6db65b6002db24924924b6db6dbe;
   0xfffffffe4904804924924924fffffffe7fffffff00800100fffffffe7ffff3ff6db6db6c1e79e7967fffffff7ffffffefffffffe4920024900000000b6db6dbe;
   0x6db6db6cb6db65b65b6db6db6db6db6cb6db6db6492492486db6db6cb6db6dfe5b6db6db6db6db6cb6db6db65b6db6db6db6db6cb6d92db6492492486db6db6c;
   0x36db6db65b6db6db2db6db6c3ffffffe5b6db6d80492492036db6db65b6db67c2db6db6c3ffffffe5ffffff82db6db6c36db6db65b6db6db0492492036db6db6;
   0x492492490000000000000000000000000000000000000000000000000000000000000000000000000000000000000000492492490000000000000000;
   0xb6db6db60000000000000000000000000000000000000000000000000000000000000000000000000000000000000000b6db6db60000000000000000;
   0x5b6db6db00000000000000000000000000000000000000000000000000000000000000000000000000000000000000005b6db6db0000000000000000;
   0x492492480000000000000000000000000000000000000000000000000000000000000000000000000000000000000000492492480000000000000000;
   0x124924900000000000000000000000000000000000000000000000000000000000000000000000000000000000000000124924900000000000000000].
Definition emoji_rows_5 : list N :=
  [0x2492492400000000000000000000000000000000000000000000000000000000000000000000000000000000;
   0x2492492400000000000000000000000000000000000000000000000000000000000000000000000000000000;
   0x5b6db6db00000000000000000000000000000000000000000000000000000000000000000000000000000000;
   0x6db6db6c00000000000000000000000000000000000000000000000000000000000000000000000000000000;
   0x2492492400000000000000000000000000000000000000000000000000000000000000000000000000000000;
   0x2db24b6c16db6db25b6496d82db6db6c36db6db65b6db6db2db6db6c36db6db65b6db6d82492492436db6db65b6db6d82db6db6c36db6db6492492482db6db6c;
   0xb6c927fe5b6db6d86db24b6c3ffffffe5b6db6da6db6cb6c3ffffffe5b6db6da6db6db6c124924927fffffff6db6dffe3ffffcb67fffffff2492492436db6db6;
   0xffc007fe7ffffffc7ff24bfefffffffe7fffffff24920924fffffffe7fffffff7ffffffe124924927fffffff000007fe1ffff4be7fffff7f24924924fffffffe;
   0x6db24b6db6db6db65b6496db6db6db6db6db6db65b6d96db6db6db6db6db6db65b6db6db24924924b6db6db6492496db6db6db6cb6db6db6492492496db6db6d;
   0xb6c927fe5b6db6da6db24b6cfffffffe5b6db6db6db60b6cfffffffe5b6db6db6db6db6c924924927fffffff6db6df06bffffcb67ffff24f24924924b6db6db6;
   0xffc007fe7ffffffc7ff24bfefffffffe7fffffff24920924fffffffe7fffffff7ffffffe124924927fffffff7fffff0e3ffffebe7ffff24f24908924fffffffe;
   0x6db24b6db6db6db65b6db6db6db6db6db6db6db65b6d96db7fffffffb6db6db65b6db6db24924924b6db6db6492496cb6db6db6cb6db6c96492592496db6db6c;
   0xb6c927fe5b64b6da6db25b6cfffffffe5b6db6db6db60b6cfffffffe5b6db6db24924924b6db6db64924924824924b6eb6c97cb67ffff24f2493c92412492492;
   0xffc007fe7fe497fc7ff24bfefffffffe7fffffff24920924ffff3ffe4924924800000000fffffffe000180007ffffffe3ac93ebe7fffffdf2493c92400012000;
   0x6db24b6db6db6db65b6db6db6db6db6db6db6db65b6d96db7ff7dfff12492492492492496db6db6d92492492db6db6db6db2db6cb6db6ff64927d2492496c924;
   0xb6c927fe5b6596da6db25b6cb6db6db65b6db6db6db60b6cffebfffe4924924824924924b6db6db64921924824924924be493cb67fffffff2497c924124b6492;
   0xffc007fe7fe497fc7ff24bfe000000007fffffff24920924ffe3fffe0000000000000000fffffffe00018000000000003a493ebe7fffffff2496e92400096000;
   0x6db24b6db6db6db65b6db6db24924924b6db6db65b6d96db7ff7dfff12492492492492496db6db6d924b6492db6db6db6c92db6cb6db6db6492cb2492496d924;
   0xb6c927fe5b6c96da6db2db6c124924925b6db6db6db60b6cffff7ffe4924924924924924b6db6db64925b2486db6db6cbe597cb65b6db6db2496792412496492;
   0xffc007fe7fe497fc7ff24bfe000000007fffffff24920924fffffffe7fffffff24924924fffffffe00048000249249243e7bbebe7fffffff249a592400010000;
   0x6db24b6db6db6db65b6596db24924924b6db6db65b6d96db7fffffffb6db6db65b6db6db6db6db6db6db6db6492492496db6db6cb6db6db6492c92496db6db6c;
   0xb6c927fe5b6db6da6db2cb6c124924925b6db6db6db20b6cb6db6db65b6db6db6db6db6cb6db6db65b6db6db6db6db6cbedbfcb65b6db6db24924924b6db6db6;
   0xffc007fe7ffffffc7ff24bfe000000007fffffff24800924924924927fffffff24924924fffffffe5b6db6db7ffffffe3ffffebe7fffffff24924924fffffffe;
   0x6db24b6db6db6db65b6496db24924924b6db6db65b6496db6db6db6cb6db6db65b6db6db6db6db6db6db6db6492492496db6db6cb6db6db6492492496db6db6d;
   0xb6c927fe5b6db6da6db24b6c124924925b6db6db6d800b6cb6db6db65b6db6db6db6db6cb6db6db65b6db6db2492492417ffe4b65b6db6db24924924b6db6db6;
   0x3fc007fe5ffffff87ff24bfc000000007ffffffe24924924124924927ffffffe249249243ffffffe5b6db6d86db6db6c1ffffebe7ffffffe249249243ffffffe;
   0x2db24b6c16db6db25b6496d82492492436db6db65b6db6db2db6db6c36db6db65b6db6d82db6db6c36db6db65b6db6d82db6db6c36db6db6492492482db6db6c;
   0x90000000000000000000000000092492486db6db6c00000000092492480000000012492490000000000492492000000000092492480000000012492490;
   0x2492492400000000000000000000000000000000000000000000000000000000000000000000000000000000;
   0x5b6db6db00000000000000000000000000000000000000000000000000000000000000000000000000000000;
   0x2db6db6c00000000000000000000000000000000000000000000000000000000000000000000000000000000;
   0x492492000000000000000000000000000000000000000000000000000000000000000000000000000000000;
   0x0;
   0x0;
   0x0;
   0x0;
   0x12000090092492480492492000000000092400000492092012492490092412480000000000000000092492480000000012400000012412400492492000000000;
   0x3fc001fc7ffffffc3ffffffc3ffffffc5fff00003ffedb243ffffffc5ffc3ff82db6db6c16db6db05ffffff8049249203fc9249003fc3fc03ffffffc16db6000;
   0x6d924b6cbffb6ffe5b6db6db6db6db6cb6db24b25b6db6cb6db6db6cb6d92db65b6db6db6db6db6cb6db6db6492492486db24b6cb2db6d965b6db6db6db6d924;
   0xffc925b67fffffff7ffffffeb6db6db65b6d92487fff5b2eb6db6db6596c365b6db6db6cb6db6db65b6db6db24924924ffc925b6797cbe4f2fffff7eb6db6092;
   0xffc001fe7fffffff7ffffffefffffffe7fff00487ffe0b24fffffffe787c3e1f7ffefffeb6db6db67fffffdf24924924ffc92492787efe5f27fffffeb6db6000;
   0x6d924b6cffdb6dfedb6db6db6db6db6cb6db24b6db6db6db6db6db6db2d92cb65b6db6db6db6db6cb6db6db6492492496db24b6cb65b6cb65b6db6db6db6d924;
   0xffc925b6fffdbfff7db6db7efffffffe5b6d92487fffdb6cb6db6db6596c365b6db25b6cb6db6db65b6db6cb24924924ffc925b67f2ef2ff24bff93eb6db6092;
   0xffcb21fe7fffffff7db6db7efffffffe7fff0048659e4ba4fff93ffe783c3e0f7fd24bfeb6db6db67fffffcf24924924ffc924927feef3ff04bff83eb6db6000;
   0x6d96cb6db6db6db6db6cb6db6db6db6db6db2492db6db2cb6db65b6db2592c965b6db2db6db65b6cb6db6db65b6cb6db6db24b6cb6db6db64b6db25b6db6d924;
   0xffcb25b65b6db6db7db65b7efffffffe5b6d9248659ecb26b6db6db6596c365b6db6596cb6d82db65b6db6db6db25b6cffc925b65fecb7fb2497f82eb6db6092;
   0xffc921fe7fffffff7db61b7efffffffe7fff0000659ecb24fffffdfe492412487f9259feb6d82db67ffffecb24000024ffc924924bfc3fc80013f83eb6db6000;
   0x6d96cb6db6db6db6db6db6db6db6db6db6db2492db6db6db6db6db6d924924925b6c92db6db65b6cb6db6db65b2492db6db24b6c92592c92492db6db6db6d924;
   0xffc925b65b6db6db7db69b7e124924925b6d9248659ffffeb6db6db6000080006d965b6cb6c825b65b6db6db6d80016cffc925b6492c92486492ff7eb6db6092;
   0xffc101fe7fffffff7db61b7e124924927fff0000649ffffeffcff5fe492412487f9c19feb6c001b67ffffec924900924ffc924924bfc3fc87c005ffeb6db6000;
   0x6d924b6db6db6db6db6db6db24924924b6db2492db6db6db6db6db6db6d92db65b6db2db6d924b6cb6db6db65b6496db6db24b6cb6db6db6db64b6db6db6d924;
   0xffc925b65b6db6db7db65b7e124924925b6d92487dfffffeb6c925b6596c365b6d92cb6cb6c105b65b6db64b6db00b6cffc925b67fe7f7ff7ff24bfeb6db6092;
   0xffc121fe492492497db6db7e124924927fff00007dfffffefff92ffe79fc3e7f7ff24bfeb6c125b67ffffe496db00b6cffc924927feef3ff7ffe09feb6db6000;
   0x6d924b6db6db6db6db6db6db6db6db6cb6db2492db6db6db6db6db6db6d92db65b6d96db6db6db6cb6db6db65b6596db6db24b6cb6db6db6db6db2db6db6d924;
   0xffc925b6492492497db6db7eb6db6db65b6d92487ffffffeb6db6db6596c365b6db6db6cb6c925b65b6db6db6db6cb6cffc925b67f3cbe7f7ffff97eb6db6092;
   0xffc001fe492492487ffffffe924924927fff00007ffffffefffffffe787c3e1f7ffefffeb6d82db67ffffe497ff7fbfeffc92492787efe5f7fffff2eb6db6000;
   0x6d924b6cb6db6db6db6db6db6db6db6cb6db2492db6db6db6db6db6cb2592c965b6db6db6db6db6cb6db6db25b6db6db6db24b6cb2db6d96db6db6cb6db6d924;
   0xbfc925b6492492487ffffffc36db6db65b6d92487ffffffe36db6db6596c365a6db6db6c36db6db65b6db6da6db6db6c3fc925b649fcbfca7fffffec36db6090;
   0x3fc001fc092492483ffffffc124924905fff00003ffffffc3ffffffc5bfc3ef82db6db6c16db6db05ffffff83ffffffc3fc9249003fc3fc03ffffffc16db6000;
   0x24800124124924900924924804924920124900000924924824924924124824900924924804924920124924900924924824800120024824800924924804924800;
   0x0;
   0x0;
   0x0;
   0x0].
Definition emoji_rows_6 : list N :=
  [0x12492490000000000000000000000000000000000000000000000000000000000000000000000000000000000000000000000000092492480000000000000000;
   0x2db6db6c00000000000000000000000000000000000000000000000000000000000000000000000000000000000000000000000036db6db60000000000000000;
   0xb6db6db60000000000000000000000000000000000000000000000000000000000000000000000000000000000000000000000005b6db6db0000000000000000;
   0x92492492000000000000000000000000000000000000000000000000000000000000000000000000000000000000000000000000492492490000000000000000;
   0x6db6db6c124924900000924824924924000000000924904824924924124924900920024824800124124924900924924824924924b6db6db60924924824924924;
   0xb6db6db65fffbaf82492db643ffffffe000000002db6d96c36db6db65b6db6d82db24b6c36c925b65b6db6d83ffffffc33fffffe5b6db6db2db6db6c36dbffbe;
   0x920924927ffe3b48000059247ffffffe000003007fffd9fc7ffffffe7ffffffe2d80036c36c007b65b6db6d87ffffffe7afffffe490490497ffffffc1249ff9e;
   0x6d96d96cb6db2d964925b2db6db6db6d000005805b6d96db6db6db6db6db6db65b6496db6db24b6cb6db6db6db6db6db6cb6db6db64b64b65b6db6db2492ffef;
   0xb60b60b67f7f92c924924b24fffffffe000016006db6d96cb6db6db65b6db6db6db24b6cb6c925b65b6db6db7fffcbfebe5ffdbe5b05b05b6db6db6cb6dbfff6;
   0x920920927f7fb7db0000d964fffffffe00003f007fffd9fefffffffe7fffffff6d80036cb6c007b65b6db6db7fff097e9fcffcbe480480497ffffffeb6dbe7f2;
   0x6d96c96cb6db6db64925b6db6db6db6d00006d80db6d96db6db6db6db6db6db65b6496db6db24b6cb6db6db6db6c965b65b6db2db64b64b65b6db6db2492cbe7;
   0xb60b00b67fffb6db2492d96cfffffffe0001b6006db6d96cfffffffe5b6db6db6db24b6cb6c925b6492492496db6492cb2fbfc965a05805b6db6db6c9249e5f2;
   0x920900927ffe934000004324fffffffe0005f3007fffd9fe12492492000000006d80036cb6c107b6000080006db0180cb2f9fc9e4800804924924bfeffffe7f2;
   0x6d96496cb6db6db64925b2db6db6db6d000b65805b6d96db24924924924924925b6496db6db2cb6c924b64925b6cbe5b6db65b6db64924b6fffff6db6db6ffe7;
   0xb60800b67fef9ad92492db2cfffffffe002db2002492592412492492492492486db24b6cb6cb65b64925b2486db2592cb6df2dbe5821805b7ffffb6c1249ff96;
   0x920820927fefbb7800005b2412492492003ff7007ffffffe00000000000080006d80036cb6c367b60005b0006db0180cb6cfeffe482080097ffff96cb6dbff9e;
   0x6d92596cb6db6db6492492496db6db6c00db6d80db6db6db24924924924b64925b6496db6db6cb6c924b64925b6c964b6db6db6db6592cb6ffffb6db6db6db6d;
   0xb60820b67fffffff24924924fffffdfe000036002492592412492492492492486db24b6cb6cb65b64925b2486db2592cb6d9fdfe5820861b7ffffb2c12492492;
   0x920020927fffffff00000000fffffcfe0000ff002492592400000000000000006d80036cb6cb67b6000580006db01c0cb6d97cfe482000097fffff2e12492492;
   0x6d92d96cb6db6db6492492496db6d96d00016d80db6d96db6db6db6c924924925b6496db6db6db6c924924925b6cbe5b6db65b6db2592c965b6db6db6db6db6d;
   0xb60160b67fffffff24924924ffffe8be0001b2006db6d96cb6db6db65b6db6db6db24b6cb6c925b6492492496db6592cb6db2f9e5820161b2492496c92492492;
   0x920120927fffffff00000000fffff83e0007c3007fffd9fefffffffe7fffffff6d80036cb6c107b6492492496db6182cb6db67f6482012090000017e00000000;
   0x6d96d96cb6db6db6492492496db6d96d000b6580db6d96db6db6db6db6db6db65b6496db6db24b6cb6db6db65b6dbedb6db6db6db2592c964924925b6db6db6d;
   0xb60b60b67f7fffff24924924fffffdfe000db6006db6d96cb6db6db65b6db6db6db24b6cb6c925b65b6db6db6db6ff6cb6db6cf6586c161b2492492cb6db6db6;
   0x920920927fffffff00000000fffffffe003fff007fffd9fefffffffe7fffffff6d80036cb6c007b6492492486db6db6cb6db6cbe482412090000000e00000000;
   0x6d96d96cb6db6db6492492486db6db6c005b6d805b6d96db6db6db6cb6db6db65b6496db6db24b6cb6db6db65b6db6db6db6db2cb6db6db64924924b6db6db6c;
   0xb6db6db65ffffff8249249243ffffffe006db6002db6d96c36db6db65b6db6d82db24b6c36c925b65b6db6d82db6db6c36db6d965b6db6db2492492436db6db6;
   0x92492492000000000000000000000000000000000000000000000000000000000000000000000000000000000000000000000000492492490000000000000000;
   0x6db6db6c000000000000000000000000000000000000000000000000000000000000000000000000000000000000000000000000b6db6db60000000000000000;
   0xb6db6db60000000000000000000000000000000000000000000000000000000000000000000000000000000000000000000000005b6db6db0000000000000000;
   0x12492492000000000000000000000000000000000000000000000000000000000000000000000000000000000000000000000000492492480000000000000000;
   0x24924924000000000000000000000000000000000000000000000000000000000000000000000000000000000000000000000000124924900000000000000000;
   0x2492492400000000;
   0x2492492400000000;
   0x5b6db6db00000000;
   0x6db6db6c00000000;
   0x2492492400000000;
   0x2db6db6c36db6db65b6db6d83ffffffc36db6db65b6db6d82db6db6c124924905b6db6482db6db6c36db6db65b6db6d82db24b6c36db24905b6db6db2492496c;
   0xb6db6db6492492486db6db6cfffffffe7ffffffa7ffe5b2c36db6d96092492487fffff24bffffff27f7fffff7ffffffc36c927b67fff92486db24b6c124924b6;
   0xfffffffe492492487ffffffefffffffe7fffffff7fff1b2eb2492d86000000007fffff00fffffff07f3fffff7ffffffeffc007fe7fff000024800124000000d6;
   0x6db6db6db6db6db6db6db6db7fffffedb6db6db6db6d92cb6cb6db2492492492db6db6496db6db64b6db6dbedb6db6db6db24b6db6db25925b6492db24924965;
   0xb6db6db6492492496db64b6cfffffffe4924925b7ffedb6cb6cb2c92492492487fffff24ffffff927f2dffff7ffffffeb6c927b67fff92c86d80016c124924b6;
   0xfffffffe492402487ffe49fefffffffe000000ff7ffffffeb2492d86000000007dbeff00fffffe007927ffff6db6db6cffc007fe7fff03c02402402400000096;
   0x6db6db6cb6d924b6db6db6db6db6df6d924925b6db6db6db6c965b6c92492492db6cb6496db6d924b64b6dfe492492496db24b6db6db25925b25b2db6db6d96d;
   0x12492492492492496db2596c124927fe492496db7ffe4b2496492d96492492487c3e7f24ffffe4927925ffff2492c924b6c927b67fff92486c16d86cb6db6db6;
   0x12000492000487ff2617e00000ffe49249fdf7fffcb2692492c00000000007c3f1f00ffffe0007924ff7f0002c000ffc007fe7fff000024124824fffffffe;
   0x24964924b6d924b6db6db6db24925b6db6db6db6db6d96d96cb2db2492492492db6db6496db6c924b65b7fbe4925b2496db24b6db6db24925b2db25b6db6db6d;
   0x12496492492492496db2db6c12497ffe7fffb60b6cbe5b6cb2492c92492492487fff1f24ffff24927b2fffff2496c924b6c927b65b6d92486c16d82cb6db6db6;
   0x92000492000487ff3ed3e00007ffe7ffffe0f64fffffeb24924007fffffff7fff1f00ffff00907b7fffff0003c000ffc007fe0000ffff24124824fffffffe;
   0x2496c924b6d924b6db6db6db24925b6db6db6d96d96db6db6db64b2cb6db6db6db6db6496db6c924b6dbedf6492db2496db24b6d92496db65b2db25b6db6db6d;
   0x12492492492492496db6636c12492ffe5b6db64b6c9ffffeb2492c925b6db6db7dfe5f24ffffe4927b7ff3fb2496c924b6c927b64924b6db6c16d86cb6db6db6;
   0x10000492000487ff2497e000007fe000007ff64bffffeb2492c967fffffff7cf87f00ffffe0007bffffff0002c000ffc007fe0000ffff24024024fffffffe;
   0x6db6db6cb6d924b6db6cb6db6db6db6d924925b6db6db6db6db6db6db6db6db6db24b6496db6d924b6fffdfe492492496db24b6d92c96db65b25b2db6db6db6d;
   0xfffffffe492492496db6596cb6db6dfe492492db6cbffffeb6c925925b6db6db7f82ff24fffffc927ffffeff6db6db6cb6c927b649e4b6db6d82c16cb6db6db6;
   0xfffffffe492492487ffe4bfefffffffe4924907f74bffffe924925927fffffff7fd3ff00ffffff807fffffff7ffffffeffc007fe0180ffff24800124b6db6dfe;
   0x6db6db6db6db6db6db6db6db6db6db6db6db6db6db6db6db6db6db6db6db6db6db6db6496db6db64b7ffffbedb6db6db6db24b6d92496db65b6492db6db6db6d;
   0xfffffffe492492496db6db6cb6db6db67fffffdb7ffffffeb6592d925b6db6db7fffff24fffffff27fffff7f7ffffffeb6c927b64924b6db6d900b6cb6db6db6;
   0x7ffffffe492492487ffffffc3ffffffe7ffffffe7ffffffe324925927ffffffe7fffff007ffffff07ffffffe7ffffffe7fc007fe0000fffe2490092436db6dfe;
   0x2db6db6c36db6db65b6db6d82db6db6c36db6db65b6db6d82db6db6c36db6db65b6db6482db6db6c3ffffffe5b6db6d82db24b6c12496db65b6db6db2db6db6c;
   0x12492490000000000492492000000000092492480492492000000090092492480492480012492490092492480492492012400090000012486db6db6c00000090;
   0x2492492400000000;
   0x5b6db6db00000000;
   0x2db6db6c00000000;
   0x492492000000000].
Definition emoji_rows_7 : list N :=
  [0x124924900000000000000000000000000000000000000000124924900000000024924924;
   0x5b6db6d800000000000000000000000000000000000000005b6db6d80000000036db6db6;
   0x492492480000000000000000000000000000000000000000492492480000000012492492;
   0xb6db6db60000000000000000000000000000000000000000b6db6db6000000006db6db6c;
   0x124920100000004000000000124924900900024804924920024924905b6db6db00000000000000000000000004800120000000005b6db6db04924000b6db6db6;
   0x3fff3db01ffffe582db6c96c3ffffffc1fe003fc2ffffbfc3ffffffc4924924924924924000000001ffff7f83ff24ffc16d82db0492492493fffc80092492492;
   0x6db65b6cb6db6d965b6db2db6db6db6cb6d925b64b6db6db6db6db6cb6d925b65b6db6db24924924b6db6db65b6496db2db65b64b6d92db65b6db2486db24b6c;
   0xffff2d965b6db2cb6db6cb6cfffffff65b6c93ff65b6db64b6db6db65b6002db6c92db6c124924925b6d96db7ff24bfe92db6d925b6002db7fffd924b6c005b6;
   0xffff07927ffff7cf7fffc9fefffffffe7ffc03ff64fffbe6fffffffe4900024924924924000000007fff927f7ff24ffeb2da6d86490002497fffc00092400092;
   0x6db6db6cb6db6d965b6db2db6db6db6cb6db25b6d96db6db6db6db6db6c925b65b25b6db24924924b6db65b6db6496db6cb65b2cb6c925b6db6db2496d924b6c;
   0xfeff6db65b6db6cb6db6cb6cfffffdb65b6d92ff6cb6db2cb6592db65b0482db6492db6c000000005b6d92db7ff24bfeb65b6cb65b0580db7fffc924b60161b6;
   0xf01f27927fffffc37fffc9fefffffffe7fff80ff7f9fff3efe0120fe4904824924924924124924927fffd2ff7ff24ffeb61b6cb6490490497fffc80092010092;
   0x6496cb24b6db6d965b6db2db24924b6cb6db64b6db6db6db6d92596db6cb65b65b2db6db6db6db6db6db6db6db6496db6d96db6cb64b64b6db6db2496d96cb6c;
   0xf25f65b25b6db6cb6db6c96c00002db65b6db27f6db2db64b64924b65b0582db6492db6cb6db6db67fffb27f7ff24bfeb6cb65b65b0db05b7fffc924b60b61b6;
   0xf04f0db27ffffe1f2492492400003ffe0bfff07f7ff2f3e6fe4820fe4900824924924924fffffffe7fff927f7ff24ffe16d92db2480490497ffff80092010092;
   0x64b65b6cb6db6db64924924924925b6c92db6cb6db6cb6db6db6c96db6c925b65b6db6db6db6db6db6db24b6db6496db24b6db24b65b6cb6db6db2496d924b6c;
   0xf25ffffe492492482492492412496db6492db65f6db65b6cb6db6db65b6002db6c96db6cb6db6db67fff927f7ff24bfe124b6492582db05b7fffc924b6c001b6;
   0xf6dffffe000000002492492400003ffe000ffe1f7ffe4ffefffffffe4920024924924924fffffffe7fff927f7ff24ffe16dfedb2480490497ffff80092400092;
   0x6db6db6d924924925b6d92db24925b6c924b6d96db6d96db6db6db6db6d925b65b6db6db6db6db6db6db24b6db6496db6db6db6cb6596cb6db6db2496db24b6c;
   0xfedffffe492492486db6cb6c124925b64924b64f6db6cb6cb6db6db65b6082db24924924b6db6db67fff967f7ff24bfeb6dffdb65b00b05b7fffd924b6d921b6;
   0xfefffffe000000007fffc9fefffffffe48003fcf7ffff97effc925fe4920824924924924fffffffe492492487ff24ffeb6ffffb6490090497fffc80092490092;
   0x6db6db6d924924925b6db2db7fffff6cb6c92db6db6db65b6db6db6db6c965b6492492496db6db6d12496592db6496db6db6db6cb64964b6db6db2496db6cb6c;
   0xfffffffe492492486db6cb6cffffffb65b6492cb6db6db2cb6db6db65b0182db24924924b6db6db64924b2c87ff24bfeb6ffffb65b0082db7fffd924b6db61b6;
   0xfffffffe000000007fffc9fefffffffe5b6c807b7fffff2efffffffe490482497ffffffefffffffe000032007ff24ffeb7fffff6480002497fffc00092490092;
   0x6db6db6d124924925b6db2db7fffffecb6db6cb25b6db6cb6db6db6cb6cb65b65b6db6db6db6db6c12492c92db6496db6db6db6cb64925b6db6db2486db6cb6c;
   0xfffffffe092492486db6cb6cfffffffe5b6db6486db6db6436db6db65b2db2db6db6db6c36db6db6092492487ff24bfc3ffffff6582496db7fffc924b6db65b6;
   0x3ffffffe000000002db6c96c3ffffffe1b6db6c83ffffff43ffffffc492492493ffffffc3ffffffe000000003ff24ffc3ffffffc482492493fffc80092492492;
   0x24924924000000000924824824924924124924900924924824924924b6db6db60924924824924924000000000920024824924924b6db6db6092490006db6db6c;
   0x5b6db6db00000000000000000000000000000000000000005b6db6db00000000b6db6db6;
   0x492492480000000000000000000000000000000000000000492492480000000012492492;
   0x36db6db6000000000000000000000000000000000000000036db6db6000000002db6db6c;
   0x92492480000000000000000000000000000000000000000092492480000000012492490;
   0x92492480000000000000000000000000000000000000000000000000000000000000000000000000000000000000000000000000000000000000000;
   0x36db6db60000000000000000000000000000000000000000000000000000000000000000000000000000000000000000000000000000000000000000;
   0x5b6db6db0000000000000000000000000000000000000000000000000000000000000000000000000000000000000000000000000000000000000000;
   0x492492490000000000000000000000000000000000000000000000000000000000000000000000000000000000000000000000000000000000000000;
   0x24924920b6db6db60924924824924924124924900924924804924920124924900924924804924920124004900000000004924920000000000924904800000000;
   0x3fff7db25b6db6db2db6db6c36db6db65b6db6d82db6db6c16db6db27ffffff82db6db6c16db6db25b6496d80492492016db6db2092492482db6d96c12492490;
   0x7fff2d86492412496db6db6c7ffffffe7ffffff87ffffffe124924967ffffffe2db6db6c124924927fe002da0000000012492492000000007fffd9fc00000000;
   0x6db6db2db6c925b65b6db6db6db6db6db6db6db2db6db6db6db6db6dfffffff65b6db6db6db6db6cb6c925b6492492486db6db6c924924925b6d96db24925b24;
   0xffff25925b6002db6db6db6cfffffffe5b6db6c86db6db6cb6db6db6fffffffb6db6db6cb6db6db65b6496db24924924b6db6db6492492486db6d96c12492d92;
   0xffff6fb64920024924924924fffffffe7fffffc07ffffffe924924be7fffffff00000000924924927fe002db0000000012492492000000007fffd9fe00003f80;
   0x6db6db6db6cb25b6db6db6db6db6db6db6db6d92db6db6db6db6db6db6db6db6492492486db6db6cb6c925b6492492496db6db6c92496592db6d96db24925b24;
   0xfe7f6db65b6d82db7ff6fffeb6db6db65b6db6486db6db6cb6db6dbe492492db24924924b6db6db65b6496db24924924b6db6db64924b6c96db6d96c92492492;
   0xfe5f2182492482497ff0fffe000000007ffff84000000000124924fe492497ff7ffffffe924824927fe002db00024000124924927ffcd3ff7fffd9feffffe0fe;
   0x6db6cb25b6db25b6db64bedb24924924b6db65b2492492492492496db6db6db6db6db6db6db65b6cb6c925b6492c924924924924b6db65b65b6d96db6db6d96d;
   0xf6df2db25b6402db7c97df7e124924925b6db25824924924124b25fe5b6db65b7ff65ffeb6c825b65b6596db24924924124924925b6c92db24925924b6db6db6;
   0xfe5f3fb6492002496c13ff2e004004807fff800800064000174f27fe7ffffe0f7ff24ffe924804927fe582db00124800000000007ffc92ff7ffffffefffffdfe;
   0x6db6db6db6c92db6db2db6db24b24b24b6db65924924b24927964b6db6db6d96db6cb6db6db25b6cb6cb65b65b6c96db24924924b6db65b6db6db6db6db6db6d;
   0xb24bfffe5b00b6db6f96dfee124924927ffff24824964924164b25fe5b6db6db7ffe5ffeb6d82db65b6596db24b25924124924925b6cb6db24925924b6db6db6;
   0xf24ffffe490092497fc0fffe000000007ffff24800024000124925fe7fffffdf7ffe7ffe924924927fe002db24924924000000007ffeff7f24925924fffffffe;
   0x6db6db6db6cb6db6db65f6db24924924b6db6c92492492492492496db6db6db6db6db6db6db2db6cb6c925b65b6cb6db6db6db6cb6db6db65b6d96db6db6db6d;
   0xf65ffffe5b05b6db7ff7fffeb6db6db67ffffe486db6db6cb6db6dbe492492db24924924b6db6db65b6496db24924924b6db6db65b6d96db6db6d96cb6db6db6;
   0xf05ffffe490082497ffffffefffffffe7ffffe007ffffffe924924be492492ff00000000924924927fe002db24924924b6db6db67fff93ff7fffd9fefffffffe;
   0x6db6db6db6c925b65b6db6db7fffffffb6db6d92db6db6db6db6db6db6db6db6492492496db6db6cb6c925b65b6db6db6db6db6cb6db6db65b6d96db6db6db6d;
   0xfefffffe5b6002db6db6db6cfffffffe7fffffc06db6db6cb6db6db65b6db6db6db6db6cb6db6db65b6496db24924924b6db6db65b6db6db6db6d96cb6db6db6;
   0xfffffffe492002496db6db6cfffffffe7ffffff87ffffffe124924965b6db6df6db6db6c124924927fe002db24924924b6db6db67fffffff7fffd9fefffffffe;
   0x6db6db6cb6d92db65b6db6db7ffffffcb6db6db65b6db6db6db6db6cb6db6db65b6db6db6db6db6cb6c925b65b6db6db6db6db6cb6db6db65b6d96db6db6db6c;
   0x3ffffffe5b6db6db2db6db6c3ffffffe5ffffff82db6db6c16db6db25b6db6d82db6db6c16db6db25b6496d82492492436db6db65b6db6d82db6d96c36db6db6;
   0x492492490000000000000000000000000000000000000000000000000000000000000000000000000000000000000000000000000000000000000000;
   0xb6db6db60000000000000000000000000000000000000000000000000000000000000000000000000000000000000000000000000000000000000000;
   0x5b6db6db0000000000000000000000000000000000000000000000000000000000000000000000000000000000000000000000000000000000000000;
   0x492492480000000000000000000000000000000000000000000000000000000000000000000000000000000000000000000000000000000000000000;
   0x124924900000000000000000000000000000000000000000000000000000000000000000000000000000000000000000000000000000000000000000].
Definition emoji_rows_8 : list N :=
  [0x0;
   0x0;
   0x0;
   0x0;
   0x0;
   0x3db6db6c36db7ffe5b6db6d82db6dbfc36db6db65b6db2482db6db6c36db6db65b6db6d82db6db6c36db6db65b6db6d82db6db6c36db6cb65b6496d82db6db64;
   0xffcb6db67fffffff2db65b2c3fffe7f27ffffffe7fffc964bffffffe5b6db6586db6db6efffffffe7fffffff6db6db6c36db7ffe7ffeb05f7ff24bfeffff6d96;
   0xffc924927ffffeff24931b2effffe7f67fffffff7fffc1e0fffffffe492492087fffffeefffffe3e7fffffff7ffffffefffffffe7ffef81f7ff24ffeffff2596;
   0x7ff2db6cb6db7cbe4b6d92cb6db6cfedb6db6db6db6db2c96db6db6db6db2db6db6db6df6db6db6db6db6db6492492496db6db6db6db6cb6db6496db6db64b24;
   0xbff96db67ffffe5f65b6db6cffff2f9e7fffb7ff7fffcbecfffffffe5b6c96db6db6db7fff5ffffe7fffffff0000000092493db67ffeb05f7ff24bfeffff6db6;
   0x1ffd24927ffff01f2493fffeffff3fbe7fff83ff7fffc7f8fff93ffe492492487ffff97effdfe7f67fffffff0000000012493c167ffef81f7ff24ffefffffffe;
   0x6ffe5b6cb6db7cbe596db6db6db67f6db6db6cb6db6db6d96db25b6db6d96db6db6db2ff6d96db65b6db6db65b6db6db2492592db6db6cb6db6496db6496db6c;
   0xb3ff2db67ffff65f6c964b24fff97cfe7ffff27f7fffc9e4fff36ffe5b6c96db6db6cbefffcbfff6492492487ffffffe12493c1e7ffeb05f7ff24bfef64f2592;
   0x92ffe4927ffffeff2492cb26fff9fcfe7ffffe7f7fffc1e0ffc067fe492492c87ffe4f6effcbfffe000000007ffffffe12493c9e7ffef81f7ff24ffef64f65b2;
   0x6cbfdb6cb6db7ffe5b6d96d96db3fb6db6cb6cb6db6db2496db25b6db6db6db6db6c9e4f6d92db6d92492492db6db6db6db6db6db6db6cb6db6496db6d96db6c;
   0xb65ffcb67fffffff6db65b6cffdbe7fe7fe5fe5f7fffc924ffc337fe5b6db6db6db25f07ffc97ffe492492487ffffffeb6db7dfe793e92497ff24bfef64f3db6;
   0x925ffc927fffffff24924924ffcfe7fe7f87fe7f7ffffffeffc337fe492492c87ff27f06ffc97ffe000000007ffffffefffffffe6c77ffff7ff24ffef24ffffe;
   0x6d97ff2cb6db6db64b6db6db6d9fdb6db6cb6cb6db6db6db6db25b6db6db6db6db6c9edf6d925b6d92492492db6db6db6db6db6db6db6db6db6496db6596db6d;
   0xb6cbff967fffffff6cb2db6cffdf2ffe7feffe7f7ffffffeffc967fe5b6db6db6db64fefffc92fbe490492487ffffffe924924925b3fffff7ff24bfef2dffffe;
   0x9249ffd27fffffff24924924fe7f3ffe7ffff87f7ffffffeffe1e7fe492492587fffcbfeff4927fe492492487ffffffe12492492781fffff7ff24ffef27ffffe;
   0x6db6ffe4b6db6db65b6db6db6cfedb6db6db6cb6db6db6db6db25b6db6db6db6db6db2ff6d924b6db6db6db65b6db6db24924924b25b6db6db6496db6cb6db6d;
   0xb6db3ff27fffffff6d96db6cfef97ffe7fff92ff7ffffffefff93ffe5b6db6db6db6d97ffe4925fe5b6db6db00000000124924927a6fffff7ff24bfefefffffe;
   0x92492ffe7fffffff24924924f3f9fffe7fff97ff7ffffffefffffffe492492487ffffd3efe4924fe7fffffff00000000124924927b7fffff7ff24ffefffffffe;
   0x6db6cbfcb6db6db65b6cb6db67f6db6db6db6db6db6db6db6db6db6db6db6c96db6db6df6db6db6db6db6db6492492496db6db6cb2db6db6db6496db6db6db6d;
   0xb6db65fe7fffffff6db24b6cf7ebfffe7fffffff7ffffffefffffffe5b6db6db6db6db6ef6db6dbe5b6db6db6db6db6cb6db6db67b7fffff7ff24bfefffffffe;
   0x124924fe7ffffffe249249241fcffffe7ffffffe7ffffffe7ffffffe492492c87fffffe67249249e7ffffffe7ffffffc3ffffffe7f7ffffe7ff24ffe7ffffffe;
   0x2db6d97c36db6db65b6db6d82f96db6c36db6db65b6db6d82db6db6c36db6db65b6db6d82db6db6c36db6db65b6db6d82db6db6c36db6db65b6496d82db6db6c;
   0x10092492480000000012092490092492480492492012492490000000000492492012492490092492480492492000000010092492480480012012492490;
   0x0;
   0x0;
   0x0;
   0x0;
   0x124924900000000000000000000000000000000000000000000000000000000024924924;
   0x5b6db6d80000000000000000000000000000000000000000000000000000000036db6db6;
   0x492492480000000000000000000000000000000000000000000000000000000012492492;
   0xb6db6db6000000000000000000000000000000000000000000000000000000006db6db6c;
   0x124924900924924800000000124920100000000000000000000000005b6db6db00000000124900000924924800000000124924900924924804924920b6db6db6;
   0x3ffffffe1ffffff8000000003fff3db0092492482492496c0000000049249249249249243fffc0005ffffff8249249243ffffffe7ffffffc3ffffffc92492492;
   0x6db6db6cb6db6db6492492486db65b6c124924925b2492db04924920b65b6cb65b6db6cb6db6c92436db6db65b6db6db6db6db6cbffffffe5b6db6db6d924b6c;
   0xfffffffe5b6db6db24924924ffff2d96492492486d92496c024924805b0db05b6db6db64ffffe49249249edb6db6db6c12496db67fffffff6db6db6cb6c001b6;
   0xfffffff27fffffff00000000ffff0792492492486c92496c000000004904904924924924124904905b6df6cf24924924b6dbe6fe7fffffff7ffffffe92000092;
   0x6db6dbe5b6db6db6492492496db6db6c924924925b2492db04924920b64b64b65b6db6cb24924b64b6db6db65b6db6db6db6db6d92492492db6db6db6d924b6c;
   0xffffef965b6db6db24924924f6df6db6492492486d92496c024924805b0db05b6db64b6c12492492492496db6d924b6c12496db6492492486db6db6cb6c825b6;
   0xfffffcbe7ffeffff0092c900f2cf2792492492486c92496c00400000490490496db6db6cffffc4904924dfdb249249241249edb6000000007ffffffe92482492;
   0x6db6d97fb6db6db6492db2496db6cb24b6db6db65b2492db04b24920b64b64b6db6db6db6db6cb64b6db65b65b2592db6db6db6db6d92db6db6db6db6db65b6c;
   0xffffe5f65b6cb6db2497f924f65f65b27ffdbfff6d96496c024924805b0db05b24924924ffffe4924924b6db6d92496c92496db67ffcbfff6db6db6cb6d82db6;
   0xffffe7927fe413ff2016c924f25f0db27ff5bfff6c96496c024800004904904900000000124900800000dbdb249009240000edb27ff89fff7ffffffe92482492;
   0x6db6df6db6c925b6592db2d96cb65b6cb6db6db65b2db2db04b24920b64b64b64924924924924924b6db6db65b2492db6db6db6db6d92db65b6db6db6db65b6c;
   0x92492fb65b6496db2596c924f65ffffe7feff7ff6d96596c024924805b0db05b24924924124924925b6db6db6d90496cb6db6db6fffd9fff24924924b6d82db6;
   0xffffe7967ffc1fff20824100f24ffffe7fffffff6c96496c024800004904904900000000fffffffe0000000024904924000000007ffd9fff2492492492482492;
   0x6db6dbefb6d92db6496596496cb6db6db6db6db65b25b2db04b24920b64b64b6492492496db6db6db6db6db65b2492db6db6db6cfff93ffe492492496db65b6c;
   0xb6db7cfe5b6d96db24924924f24bfffe7fffffff6d92c96c024924805b05b05b6db6db6cfffffffe5b6db6db6d92496cb6db6db65b6cb6db24924924b6d82db6;
   0xb6db7cbe7ff59fff00024000d2cbfffe7fffffff6c92c96c00000000490480496db6db6c12492492492492482482412412492492000000002492492492482492;
   0x6db6db2fb6db6db6492492496496db6db6db6db65b2592db04b24920b64b64b65b6db6db24924924924924925b6496db2492492492492492492492496db65b6c;
   0xb6db6d965b6db6db24b24924f25ffffe5b6db6db6d92c96c024924805b0002db6db6db6c124924925b6db6db6db2cb6cb6db6db64924924924924924b6d82db6;
   0xb6db6df27fffffff00100000fefffffe7fffffff6c92496c000000004900024924924924fffffffe5b6db6db24924924b6db6db67fffffff2492492492482492;
   0x6db6db7cb6db6db6492492486db6db6db6db6db65b2492db04924920b6c925b65b6db6db6db6db6d924924925b6db6db24924924b6db6db6492492496db65b6c;
   0x36db6dbe5b6db6da24924924fffffffe5b6db6da6d92496c024924805b6496db2db6db6cbffffffe492492486db6db6c124924927fffffff24924924b6d92db6;
   0x16db6db61ffffff8000000003ffffffe5ffffff82492496c0000000049249249249249243ffffffe5ffffff8249249243ffffffe7ffffffc0492492092492492;
   0x4924920124924900000000024924924124924900900004800000000b6db6db6092492482492492412492490092492482492492412492490000000006db6db6c;
   0x5b6db6db00000000000000000000000000000000000000000000000000000000b6db6db6;
   0x492492480000000000000000000000000000000000000000000000000000000012492492;
   0x36db6db6000000000000000000000000000000000000000000000000000000002db6db6c;
   0x92492480000000000000000000000000000000000000000000000000000000012492490].
Definition emoji_rows_9 : list N :=
  [0x92492480492492012492490000000000000000000000000092492480000000000000000092492480000000012492490000000000000000012492490;
   0x2db6db6c36db6db65b6db6d82db6db6c00000000000000000000000036db6db6000000000000000036db6db6000000002db6db6c00000000000000002db6db6c;
   0x124924925b6db6db6db6db6cb6db6db60000000000000000000000005b6db6db00000000000000005b6db6db00000000b6db6db60000000000000000b6db6db6;
   0x124924925b6db6db2492492492492492000000000000000000000000492492490000000000000000492492490000000092492492000000000000000092492492;
   0x6db6db6cb6db6db65b6db6db6db6db6c124924900924924824924904b6db6db60000000024924924b6db6db6092492486db6db6c12492490092490086db6db6c;
   0x924924925b6db6db6db6db6cb6db6db65b6db6d82db6db6c36db6d965b6db6db0492492036db6db65b6db6db2db6db6cb6db6db65b6dfef82db6d93cb6db6db6;
   0x924920925b65b2db24924924924924925b6db6d82db6db6c36db6c1649049249000000007ffffffe490492497ffffffc904824927ffffefe7ffef83e92092092;
   0x6db6d96cb6cb65b65b6db6db6d92496cb6db6db25b6db6db6db6d96cb6cb65b6492592486db6db6db6cb65b65b6db6db64b65b2cb6db6db65b6cb25b6d96d96c;
   0x924920925b6db2db6db6db6cb6c000b6492492406db6db6cb6db64b65b0580db24925924fffffffe5b0580db6d92db6cb0582c167ffff7df6db6d93eb60b60b6;
   0x920000925bc7f3db2492492492400092492492c064b6db6cb6dbe5b24900804900824900fffffffe490082497c9fdb3e904824027ffff7cf7ffef83e92092092;
   0x6d92d92cb64925b64925924b6d92db6cb6db6d925b6db6db6db6cb6db6c925b6492492496db6db6db6c925b6db6db6db64b25b2cb6db6db65b6cb25b6d96c96c;
   0x920924925800001b64920924b6c16db65b6db6486db6db6cb6db2db65b6082db24924924fffffffe5b6082db6db6db6cb0580c167ffffbff6db6d93eb6c361b6;
   0x920900925904925b04920924924024927ffff8486db6db6c00002d9e492002490012480012492492492002497ffffffe904804127fffffff7cbef83e92410092;
   0x6c92492cb6cb65b64b6db6db6db25b6cb6db6d925b6db6db2492db7fb6d92db6492db24924924924b6d92db6db6db6db6cb24b2cb6db6cb6596cb25b6d92cb6c;
   0x900000125b6db2db6db61b6cb6d82db67ffff6486fb6db6cb6db6cfe5b6016db2496f924124924925b6c16db6db65b6cb04104167ffffeff6496d93eb6c105b6;
   0x920900925b45b2db04920924924824927fff82482ffedb6cb6db65fe492012490406602000000000492412497ffa5ffe904104127ffffeff619e482492410492;
   0x6d92d96cb6cb65b64b6db6db6db65b6cffffe4925fedb6db6db6dbffb6d92db6492db24924924924b6d92db6db6db6db6cb2c92cb6db6db65b2db6db6db2cb6c;
   0x920924925b65b2db6db61b6cb6db0db67ffff2486fb6db6cb6db6cfe5b6c16db2496c924124924925b6016db6db24b6cb64104367fffffff6496db6cb6c105b6;
   0x920900925b65b2db04920924924904927ffff2482ffedb6c12496cbe492412490086c10000000000492002497ff24bfe900104127fffffff641ffffe92400492;
   0x6c92492cb6cb6db64b6db6db6db64b6cb6db6c925fedb6db24925b6fb6d92db6492db2496db6db6cb6c925b6db6db6db6c92c92cb6db6db6592db6db6db24b6c;
   0x924924925b65b6db6db61b6cb6db05b65b6db6486fb6db6cffff2db65b6c16db24924924fffffffe5b0182db6db25b6cb60360367fffffff6db6db6cb6d80db6;
   0x924924925b61b6db0000000092490092492492002ffedb6cffff85b24924124900000000fffffffe490080497ff25ffe920120127fffffff7ffffffe92480492;
   0x6db2c96cb6d96db64924924b6d92496c924924925fedb6db6db6cb6cb6d92db6492492497fffffffb64b64b6db6db6db6c96c96cb6db6db65b6db6db6db25b6c;
   0x924904925b6c16db6db6db6cb60000b6492492406fb6db6cffffe4b65b6c16db24924924fffffffe5b05b0db6db6db6cb60b60b67fffffff6db6db6cb6d82db6;
   0x924904125b6c06db2492492492000092492492582ffedb6cfffffcb64924124900124800fffffffe490490497fffdffe920920927fffffff7ffffffe92482492;
   0x6cb2cb2cb6db6db65b6db6db6d924b6cb6db6db65fedb6db6db6db2cb6db6db6492492487ffffffcb6db6db65b6db6db6d96d96cb6db6db65b6db6db6db65b6c;
   0x924924925b6db6db6db6db6cb6db6db65b6db6d82fb6db6c3fffff965b6db6db049249203ffffffe5b6db6db2db6db6cb6db6db65b6db6d82db6db6cb6db6db6;
   0x924924925b6db6db2492492492492492000000000000000000000000492492490000000000000000492492490000000092492492000000000000000092492492;
   0x6db6db6cb6db6db65b6db6db6db6db6c000000000000000000000000b6db6db60000000000000000b6db6db6000000006db6db6c00000000000000006db6db6c;
   0x124924925b6db6db6db6db6cb6db6db60000000000000000000000005b6db6db00000000000000005b6db6db00000000b6db6db60000000000000000b6db6db6;
   0x124924905b6db6d82492492412492492000000000000000000000000492492480000000000000000492492480000000012492492000000000000000012492492;
   0x24924924124924900924924824924924000000000000000000000000124924900000000000000000124924900000000024924924000000000000000024924924;
   0x12492490000000000000000000000000000480000002400012492490092492480492492012492490092492482492492412492490092492482492492412492490;
   0x36db6db600000200249249240001200000049000001ff800124924907ffffffc2492492412492490092492483ffffffc3ffffffe5b6db6d83ffffffc12492490;
   0x65b6db6c00000d80492492490016db00005b6c80016c96006db6db6cb6db6db65b6db6db6db6db6cb6db6db65b6db6db6db6db6cb6db6db65b6db6db6db6db6c;
   0xb2db6db2000012c024924924000924800124924001800300924924925b6db6db2492492492492492492492496db6db6cb6db6db65b6db6db6db6db6c92492492;
   0xb663fdb20000004024924924004800800124924005800160124924927fffffff2492492412492492492492487ffffffefffffffe5b6db6db7ffffffe12492492;
   0x6db6db64000000a04924924900b0016006db6db00b0000506db65b6cb6db6db65b6db6db6db6db6cb6db2db65b6db6db6db6db6cb6db6db65b6db6db6db6596c;
   0xb6db6d86000400c02492492402400010092492480cb6482092492492596da6db2492492492492492492492496d965b2cb6db2db65b6cb6db6da6db6c92492492;
   0xb6dbff96000400c02482c00002412010080000080992cc0812482092786c827f2492492412000092492492487c92483efff83ffe5b6c36db7c82c13e12092092;
   0x6db6db6c000b6580492592490596d90c164924b0190086086d92496cb6c924b65b2492db6d92496cb64924b6592492db6db2db6cb64924b65924925b6d92596c;
   0xb6db2db6000db6002492c92402092402092492482192c30c92000012596db65b2400002492092092480000496c92496cb6d90db65820825b6d82c16c92482492;
   0xbffbffb6000db6000006c00002092482090492482192c184104924127864861f2412082412092092492482487f9e7ffeffc3e5fe5864965b7f83c1fe10492012;
   0x6db6db6d001b6c00492db24904b6db00365b25b6410090c26cb6db2cb6cb24b65b6cb65b6d92496cb6db65b65b6db6db6d96d96cb6d96db65b2592db6cb6492c;
   0xb6db2dbe002db6002496d92402492480492400486192c80492400412596d86db2492492492000092492482496c00032cb60b64b65b6d965b6ca45b2c92492492;
   0xbffb7fbe002db6000012c80002480480490490486092400610492012786586ff2412482412092092490002487c92483ef840041e5c7d865b7cc6733e12002092;
   0x6db6db6d005b6d004965964904b00b60b6596cb6400006036c96d96cb6cb24b65b24925b6d96d96cb65b64b65b6db6db6cb24b2cb65965b65b6db6db6db6d96c;
   0xb2db6dbe006db60024b2cb24024804904924904965b6c30492492092596d86db2412482492092092492490496c90496cb6db6db65b01b05b6d92496c92492492;
   0xbfffefbe006db6c00092cb00024804904904904840924382124000927864825f2412482412092092490002487c104ffeffdb6dfe5b25b25b7f8001fe12002092;
   0x6db6db6d00db6d804b6596c905b00b60b6596cb6406006c36d924b6cb6c924b65b6cb65b6d92496cb64924965b6db6db6d92496cb6db6db65b6db6db6c92592c;
   0xb7df6dbe016db6c025b2cb6402482490492490496492430492492492596db6db2492492492000092492492496c92496cb60924b65b2492db6db6db6c92492492;
   0xbfdffffe016db6002c02c124024924104904904865f2420612490492786692ff2412482412092092492492487c92497eff1ffcfe5b0000db7c00003e12492092;
   0x6db6db6d02db6c005964964b21b6db60365924b6406086026d92496cb6cb24b65b24925b6d96d96cb64925b65b6db6db6db6d96cb6db6db65b6cb6db6c92596c;
   0xb7cf6cfe036db00024b00b0410492480492492482080830492492492596cb65b2492492492092492492492496c92486cb61b6cb65b6c36db6d965b6c92492492;
   0xffeffffe036d80000000000010492080090492482082020412492492787cfe7f2492492412092492492492487c804e7eff1ffcfe5b6c36db7f8679fe12492092;
   0x6db6db6d06db0000492492482036c960165b6db0186506086cb6d96cb6db6cb65b6cb6db6d96d96cb65b65b65b64b65b6db6d96cb6db6db65b2cb2db6cb6596c;
   0xffff6fbe0b6c00002492002010090080092492480c92032892492492582c925b2492492492092412492492496c96cb2cb60924b65924125b6c36486c92492492;
   0xffffffbe0b6000000000000012000480090092400c300220120000927c0c007f2492492412012412490092487c1fcf3effc001fe5800001b7cbe0f3e12002412;
   0x6db6db6d16c00000492492480d800b0006cb6db00b2002506db6db6cb6db6db65b6cb6db6db6db6cb6cb65b65b6db6db6db6db6cb6db6db65b6db6db6db6d92c;
   0xfffb6cfe1b00000024924924024924000124924005800160924924925b6db6db2492492492492492492492496db6db6cb6db6db65b6db6db6db6db6c92492492;
   0xfffffefe1800000000000000024924000124920001800100124924927fffffff2492492412492492492492487ffffffefffffffe5b6db6db7ffffffe12492492;
   0x6db6db6c300000004924924900b6c800005b6c80016c96006db6db6cb6db6db65b6db6db6db6db6cb6db6db65b6db6db6db6db6cb6db6db65b6db6db6db6db6c;
   0x3fff6ffe400000002492492400090000002490000016d800124924925b6db6d82492492412492492492492482db6db6c36db6db65b6db6d82db6db6c12492492;
   0x12492490000000000000000000000000000000000002400000000000092492480000000000000000000000000492492012492490092492480492492000000000].
Definition emoji_rows_10 : list N :=
  [0x2400000012000000490000002400000012000000480000002400012496db0000010000000000016db6db04800000024924924124924900924924824924924;
   0x96c000005b0000016d800001b6c000024900000124800000924005b6db6d800904800000000005b6db6d86d80000012492490492492482492492412492490;
   0x16c000005b60000b6d900004924000024920000124900004924004b6df3fe00904800000000007bffffee7ff0000012492492492492482492492412492492;
   0x92db00025b6d80016db6c001b08b00025b6d80012db6c001b6c900b6db6db6092492400002c800b6db6db65b6c00002492d924b6db6db6492592492492c924;
   0x2496d80012db6c005b6db6002410480016db6c00492db6002d964805b6db6db04924920000924005b67b6fb25b60000124924924925b6492492492412492492;
   0x416db0002db6c005b6db60024100100124924004924920024924804365ffcf00804900000924007f67f3e32497c000124924924925fe482492492412492492;
   0x492db60125b6db00b6db6d80c80832012db6db0096db6d80db6d920b6db6db60024920000b6db00b6db6d96496db00025b24b24b6db6db6492db2492496d924;
   0x12496db0096db6d80db6db6812c92590092db6d804b6db2016cb6c90596db6db00124800004924805b6db6db2492d800124924924925b6492492492412492492;
   0x416db0016db6d82db6db6c124924900924924804924920124924905b6db7ff00124000004b64807ffdbfff24927800124000924925be482490092412480492;
   0x2492db6c12db6db65b6db6d82182c12c125b6db6496db6c82db25b24b6db6db6000db00001b6db60b6db6db65b25b6002d924964b6db6db64964924924924b24;
   0x12496db6096db6d82db6db6c320100864925b6d82496db2436c92c925b65b6db0006400002416c905b6db7db6d925b00124964925b65b6492492492412492492;
   0x16db6016db6d82db6db6c020100824924924824924924124924925b25b6fb0012400000002c907ffdbfff6c924f0012007c9259e5be5b2480012412000092;
   0x2492db6c12db6db65b6db6db65008064125b6db64925b6c86db6d924b6db6db6002db00000005b6cb6db6db65b6cb6c02592d924b6db6db64b2492c925924964;
   0x12496db6496db6db6db6db6c820100824925b65b24925924b2db6c925b6cb2db00b2d80000002c905b6db6db6db64b40124b6c925b65b65f2492492412492492;
   0x16db6016db6db6db6db6c820100024924924924924924124924925fecb6db00f6f80000000c906fedb7ef6db249e01201fc9259fffe7f2400002412000092;
   0x2492db6c92db6db65b6db6db6db6db6c924b6c964924b24965b6db24b6db6db6016db60000001b6cb6db6db65b6d96c02592db64b2db6db65b2492592db2496c;
   0x12496db6496db6db6db6db6cb6db24b64924964b2492c924925b6d925b6d96db01d6d90000002c925b6db6db05b6c96016cb2c925bbf96df2492492412d92492;
   0x16db6096db6db6db6db6c820100024924924924924924124924927bfc965b01ded9c000002c927f7dbeff00b649701fc1fc925fbfffff2400002412480092;
   0x2492db6c92db6db65b6db6db6400806492492496496d924925b6db24b6db6db6036db6c000005b6cb6db6db6006db2d82db2db6cb6db6db64b2492c925b64964;
   0x12496db6496db6da6db6db6c020100824924924a25b64924125b25925b6db6db0596db6000006c925b6db6db0016d92c16cb2cbe5befb6ff6d92496c16db2492;
   0x416db6016db6d82db6db6c020100824924924824924924124924927ffffef90796df6000016c925bfdbfdb0016c93c1fc17cbe5fe7feff7ffffffe12490092;
   0x2492db6c12db6db65b6db6d82180814412d964964b6d924824b6c924b6db6db20b6db6586002db6cb6db6db6000db6d82db6db2db6db6db65b6db6db2db6cb64;
   0x12496db4096db6d82db6db6c320100840924924825b64924125b24905b6df6db2f96db30925b64925b6db6db0006d92c13df6cbe5bffb7df6db6db6c36db6db2;
   0x16db0016db6d82db6db6c124924900924924804924920124924907fffffdb3f9fdf3812db24927bfdbfdf0002d92c1fdfeebe7fffffdf6d92cb6c12492db2;
   0x492db6c12db6db01b6db6d82db6cb2c125b6490096c92480496c920b6db6db65b6db6d86db6db6cb6db6db60001b65a2db6db6db6db6db65b6db6db6db6db6c;
   0x2496db0096db6d80db6db6014c10110096d924004b24920024b24907bfffffb6fb7db6c924924925b6db6db0002db2c17ff6ffe7bfdb6ff6db6db6cb6db6db6;
   0x16db0002db6c005b6db60024100100124924004924920024924807fffffff7fffff6c124924925b6db6db0000d92e1feffefe7ffffe7f6db6db6c92496db6;
   0x492db60025b6d80036db6c005b08b6002596480016c924004964920b6db6db65b6db6d86db6db6cb6db6db60000b65b6db6db6db6db6db65b6db6db6db6db6d;
   0x496d80012db6c001b6db0002d90d80012c920000964900004924807fffffff7fb6fb6c924924925b6db6db0000db2cffff6fbe7bffb7ff6db6db6cb6db6db6;
   0x16c000005b60000b6d900004924000024920000124800004924007ffffffe7ffffffe124924927ffdbffe000059267fffffbe7ffffffe6db6db6c124b6db6;
   0x12d800000b6c00002db2000016d80000492400002492000012480036db6db6db6db6db2db6db6c36db6db60000b65b6db6db6c36db6db65b6db6da2db6db6c;
   0x2000000080000002400000012000000080000000000000010000092492482492492412492490092492480000492412492490092492482492492412492490;
   0x12492490000000000000000000000000000000000000000000010000000000000002000000010000000000000000000000000000;
   0x10000090000006db6db6c02010080002180000012480000002400002400000016d80000000000002db00000164800005924000024900000125800;
   0x800004000000b6db6db60100804000124800004924000000120000100000005b6c000800000000b6d800005b2400006492000012480000492c00;
   0x800000000000b6db6db6000080000012480000080000000000000000000000db6d800000000000b6d80000db0000016000000000000000000580;
   0x4000000100004b6000006db6db6c02412080002db60004924920000004800120000005b6db6010000000036db64005b6492002c924800124924004924b60;
   0x2000000080402de00000b24b6db6000482000492492002492480000002400480000006db6db00800000005b6d92006db24800b24924004924920024925b0;
   0x20000900004007800000b2492db6000490000492492000000480000000000080000006db6db00000000005b6d90006db04800b04020000000900004020b0;
   0x4820020120904b6c00006c96db6c00092400032492c00492492000000490092000002db6db6c100000001b6db6482db6492016c92490092492480492496c;
   0x4020100104904005be0000b24925b6002492000492492012492490000002480480000016db6db0480000002db6db2016db24901b24924804924920124924b0;
   0x4000100004900001f00000b24920b6012492400492492000000080000000000000000016db6db0000000002db6db0016db04801b00020000000900004000b0;
   0x90482000492400096d80006d92c96c124924905924925824b2492400000092490000002db6db6c900000005b6db6c82db6492436492492492492482492496c;
   0x924000024920000b7c000b64924b6092492482492492412792c92000002c82780000036fb6db6480000006db6db2436db24925b24924824924924124924b6;
   0x240000249200003e0000b64000b6092492400492492000f83f00000003e00780000036fb7fb6000000002db6db0036db0000580400000000000000002036;
   0x12490000492480012db0006d92496c02492490096cb65824b65b24000005b24b2000006db6db6c920000005b6db6c96db64924b6492492492492492492496c;
   0x92480492492080016f800b64924b6012492402492492412f93f92000012c827900000b6fb7fb6480000006db6db24b6db24925924924824924924124924b6;
   0x80482492080007c000b64000b6012492002492492410780c000000004000000000b6fb7fb6080000006db6db00b6db0000580400000002000000002036;
   0x4924924905924920025b6006db2492c004924805924925b2492492400002492492400006db6db6c920000005b6db6c96db64924b6492492492492492492496c;
   0x12492492492492080002df00b64924960024920024924924124924920000124824900000b6db6db6490000006db6db24b6db24925924924824924924124924b6;
   0x92000000f800b6400002002492000492492000000000000000082000000036db6db6000000006db6db0036db0000580000000000000000000036;
   0x24924900004924000004b6406db2492492492412092492582492492400000492492000006db6db6c124000005b6db6c86db64924b6492492492492482492496c;
   0x124924900024920000005b20b6c92496402492082492492412492492000012482490000036db6db6092000006db6db2436db24925b24924824924924124924b6;
   0x1f20b6c000b6002492002492492400792e0000001fc001f8000036fb7fb6010000002db6db0036db00005b04020000000100004020b6;
   0x2492492412492400000096d86d92496c004924800b25b24824b6db2400002d90096c00002db6db6c124800005b6db6c82db6492436492490092492482492496c;
   0x124924904924900000000b64b6c924b60124920004924920125fec90000012480492000016dffdb0092400002db6db2016db24901b24924804924920124924b0;
   0x4000000be0b6c900b60120020004924920004b6000000002000090000016dfedb0010000000db6db0016db00000b24000000900000000024b0;
   0x2492492492492480000016d86db6c96c00410480036492c00492492000012490092480000db6db60024920000b6db6480db6492016c924900924924804924960;
   0x124924904924924000000b64b6db65b6000080000492492002492480000492400492400006db6db00124920005b6d92006db24800b24924004924920024925b0;
   0x4000000160b6db61b6000000000012480000400000000002000080000002db6d800000800005b6d80002db2000016000000010000000000580;
   0x12492480000002486db6db6c000100000025960000924900004924800124920001b6db0000492490016db24001b6490002c924800124924000924b00;
   0x924920000000120b6db6db60000800000124800004924000024920000124800005b6c000004924000b6d800005b2400006492000012480000492c00;
   0x36db6db60000000000000000000000000000000000000000000b6400000000000016c000000b0000002400000000000000002400;
   0x24924000000000024924924000100000000800000024000000120000004800000024000000124000004800000024000000920000004800000024000].
Definition emoji_rows_11 : list N :=
  [0x10000002000000002400000010000000000000000000000000000000000000000000000000000000000000012400000000000000000000000000000002000;
   0x12000016000000002400000010000000000480002c00000000000000000000000000000000000000000000092480000000000000000000000000000002000;
   0x16d80006d80000002db6000002c000000005b6002db0000000092000000000000012580000000012492492036db60000124000000920000024800000004800;
   0x1920000b6c120000b6db0000036000000002480036d80000002490000000000000096c000000000000000005b6db0000092000002480000012400000002000;
   0x2092000002c16c000924900000920000000024800b6d90000000490000000000000492c00000000000000000492490000000000000000000000000000402010;
   0x2d96d800005b6db0036db6c00016d80000002db0016db60000005924000000000000b2d800004800124924920b6db6c004924900124924800924924000904020;
   0x12092c00002db6d005b6db60001b68000000124001b6db0000012c920020100000024b2c000124000004924805b6db6012492480092492402492490000482090;
   0x320920000124965804924920000920000000924004b65b20000024100124120000024b2000000000000000000592490000000000000000000000000000092400;
   0x2d96d80002db6c100b6db6d00016d800020165800b6db6c00002596c02592c800005965800024924924924920b6db6c024924900124924804924924000124920;
   0x120920000b6db6000db6db60005b6c00490080000db6db60000924920924964000125964000124924924924805b6d90012492480492492402492492000092400;
   0x120920000920920005924960001b6c00092080000596596000082490092482400012492400000002000000000492490000000000000000000000000000000480;
   0x2d96d86016c32d801b6db6d80036d80016c160001b6db6d800124b6412cb25b0002cb6d80002492492492492036db60024924924924924924924924800924904;
   0x120920900b0496c02db6db6c005b6c00092080002db6db6c02492490092492480092cb24000124924924924805b6db0012492492492492482492492402492492;
   0x120920900804824024b24b2400492400092080002596596402490000092492480092d92000012090000000000092d80000000000000000000000000000000012;
   0x2d96d96c160305b01b6db6d800b6db0006db00005b6db6d804924920125924b20165b6d80002492492492492036db00024924924124924924924924924924924;
   0x12092096180482c02db6db6c005b6c00012480002db6db6c024924804924924804965920020124904924924801b6480012492492092492480492492412492480;
   0x12492092080482402492492400db6d00010480002cb2596402492400492492080496490000010400000000000092400000000000000000000000000000000000;
   0x2db6d96c100b01b01b6db6d800b6db00000b00005b6db6db0492490096c924920b2cb6c02482492492492492016db00004924920024924900124924824924924;
   0x124b2190000480c02db6db6c02db6d80000480006db6db6c124924004924924804b2c90012012490492492480096c00000012000000000000000000012492490;
   0x12492090000400400c965960024b6480000080002cb2592c10092400492490480496480000000010000000000016c00000012000080000000000000000000000;
   0x5b6db6c000b00b00b6db6d805b6db60000300005b6db6db2492db00b65b65b2196db6002482492092492492002d80000002d00012080480000c020024924924;
   0x24924900005804005b6db6002db6d80000080006db6db6c12492c00492492d82596480012012490492012000016c00000012000082402000002010012492490;
   0x92c900004804005b2cb2002db6d80000080006cb2592c00492400492490482592400000000010000000000016400000012000080402000002010000000000;
   0x16db60000b0000016db6c005b6db60000100005b6db6db2496d80016db2cb20b2db0002482492092492492000da0000016d800120904120104020804924924;
   0x92490000580000096d90006db6db0000080006db6db6c12490000092492482cb2400012000080492400400002c00000092400000400080080400400000000;
   0x92400000480000007c00012492490000080003cb25b7c02490000000000000492000000000000000000000002400000010000000000080080400400000000;
   0x16d800000b60000005b0000db6db60000100001b6db6d824b60000000000001b6d800004000000924924920021b2400002c000000000120104300804000004;
   0x92000000480000007e000000fe000000080000fb6dbe012480000000000002592000000000000492492480010492000010000012010080002010002010410;
   0x92000000480000007e000000fe0000000800007ffffe012480000000000002c90000000000000000000000000480000000000010010000002010002090412;
   0x16d800000360000005b0000006c00000010000016db6c005b0000000000000192000000000000092492492002492480000400002402400000500c00430c30c;
   0x92000000580000007c0000003e00000008000003ff80002400000000000000000000000000000092492480092492400002000000010000002000000080480;
   0x2400000010000000000000002400000000000000000000000000000000000000000000000000000000000000000000000000000000000;
   0x100000920000000000000800000000100000100020000000000000000000000000000100000000820000004000000008000000000000000800000000000;
   0x2db200008000000040000000018000009009000000040000240000000040000008200000041000001200000003c400000400000002c00002000000;
   0x10400007cfe0000800000004000000001800000900900000004000024000000004000000000000004900000124800007bec00000410000002400002000000;
   0x12080002d96d800100000000a0000000034000036c16c02d801900005900000900b0400012480000492480002492400036d800000920000025b00004000000;
   0x924000364b6402080000000400000002580000490092012402400000480000490d920004924000124920000924920007f6c00000490000016c80002000000;
   0x4924000164f24020800000004000000027d40024900924124024000004800004904920000000000124920000924920007ffc00000490000012480002400000;
   0x1b6db0012d96c901860000005b00000005b6c005b6c36d824b05900000b20000b2db6c804924920004b6480012d924800b6db00000b20000025b20005b00000;
   0x6d92d80096db2480010000402c80000002db4002492492412402400000482000492590002492480012ff2400096492400fb6d00000590000092c90012480000;
   0x7fb7df0097ff2480010080412490000003ff8002492492402482400000082000492490000012000012ff2400092792000ffff80080490000092490012480000;
   0x2db6db6012db6492080092582db60060001b6c001b6db6d800865900004924000b6db6c00496d920025b6c900925b64801b6db00124b2c900125b2002db00000;
   0x36db6db0496db2480402492012c90080002db0400492492000032400012482000492490002492480093ffe400492cb2403fb6d800924b2480092c90016d80000;
   0x3ffffff84964f2480082492012490090031ff8400092490000012000012482000492490000092000013ffe400492c92003ffff80092492480092490017f80000;
   0x6db6db6cb6c96c964105b2c86db6c36c069b6da2012db6000002c82000c96180036cb6c00096d900025b6c80096db64801b6db0012d92c90012592402db00000;
   0x36db6db65b24b64b2012492036db04925b6db2ca00124800000b6090002402080492492002492480013ffe4025b6d92003fb6d80496492480092c90016d80000;
   0x7ffffffe7f24be5f20124920124904927ffffffc0092490000492090002400080092492000092000013ffe402493c92001ffff8049209248009249001ff80000;
   0x6db6db6cb6c96db6182496c86db6cb6c36db6db60b6db6c000b6d964000921b00b6db6c00492c920025b6c90496db64800b6db0092492592012592002db40000;
   0xb6db6db65b64b6db0412492412c90cb61b6db6d80492492000d92c90000410402c92492002492480012ff2402492db2000fb6d00492492c80092490016d80000;
   0xfffffffe7fe4fffe04124920124904921ffffff80492492000490490000410402492492000000000012ff20004924920007ffe0009249248001248001ffe0000;
   0x6db6db6c36db6db60125b6c82db6cb6cb6db6db65b6db6d800b60b20005b0d805b6db6d800924800004b6480092d964800b6db0002c92c90002492000db60000;
   0xb6db6db6092db2480092492036d905b25b6db6d82492492400080500002490000d924920000924000124920004964b24005b6c00006496002002400406db0000;
   0x3ffffffc0004900000924920124904920ffffff824924924000001800020800004924920000000000124920000924920000b6000002016002400002407ff0000;
   0x6db6db6c001b6c000165b2c82db60b6c06db6db01b6db6d80000d90000410580036db6d80012480000492480492d92480036d80002492c801b00805805b6c000;
   0x36db6db4002490000492492012cb04b2016db6c00492092000016d800000820004924920000100004004900024964920001b6c000124b2400480012002db6000;
   0x3ffffff8002490000492492012490490007ffe0000920900000124800000020004924920000100004804900824924924000b60000124b2400490092003fffc00;
   0x2db6db68005b6c00496cb2402db6036c00db6d80016516c00006db60000025800b2db6d801b24b0036cb65b61b2492580006c00002596490036c96c001b6db24;
   0x16db6db0002492002492490012c800b0016596c000820100000124b00000120004824924004924801b6196d80492492000010000092492400092490000db6db6;
   0x7fffff00024920004924900124800900000800000020000000120300000120004004924004924001b6d96d804924920000100000124124000924900007ffffe;
   0x5b6db60005b6c000924b2000db0002c00010000000c00000000406000000d800800b6d800b6d90016db6db00364b6c00000800002482490006db6000016db6c;
   0x2db6d800024920004924800164000120001800000120000000000300000020004000924000924000b6db6c000924900000100000024120000124800000b6db0;
   0x7ffc00002492000092400012400000000080000010000000000030000002000000000000010000012592400010090000010000002012000002400000017ff0;
   0x36d800005b6c00002480002c80000000010000002c000000000020000004000000000000000000000340000000120000008000004004000005800000005b20;
   0x12000002490000000000010000000000080000010000000000000000000000000000000000000000080000000000000010000000000000000000000000000].
Definition emoji_rows_12 : list N :=
  [0x400000000000000000000000000000000000000000000000000000000000000000000;
   0xb6d900004b6400000592000000590000482d800000001800060120000a00000000000000000000000000020005b6000000000000000400000000080000000c;
   0x2492480012492000012490000016c80016c12400000000c000305b0000600000000090000000000000000090002db0000000000000002000000000400000010;
   0x2492490012092400012490000012480012492480000001800030d80012300000000490000000000000090480012490000000000000082000000000400000010;
   0xc92d96006596cb0016db6c00006db0002db6db60000001800021b4016db00000000360004800000001b6c90016db6cb00000000005b6c00000080080000016c;
   0x1249fc900924924801b65900000b6c80012492480000002000012d800925800000021b20020000000004964000925b7c00000000002496000002402000000190;
   0x24bfc800924124807fef9400009240001249240000000600001ec0001258200000049200000000000049240049249e000000000012492000012402000000590;
   0x492d96036db2d940b6db6c00036d90016db6db0000012c001b6db0002db6d800004b6c004800000004924b00b6db6c00000002c024b6d80002db24000000b6c;
   0x2db6c80492492480db6db60005b2000092c92480000496002492480036db6c00006db00024000000124924804924b00000000b40124924000124b6000000db4;
   0xf9f580012492480df7fff000002000092c924800004900024924900fffffe000024920000000000124924804924920000005e20924924000124b6000000db0;
   0x1b6d90032cb65b6196db6d80000410036db6db0000092400db6db6016db6db00005b6c804800000124925b61b6db6c000005b64125965b0036db6d800001b6c;
   0xd92580492492480db6db6800002000492c924800024920124924900b6db6d80002db0002402000092492482492492000016db6092492400db24b6000002db0;
   0xf92580092492480dfffff8000000004924924800124900124924900ffffff8000249200000000009249248249249200003fff2092492400db24b6000006db0;
   0xb2490036db6db41b6db6d80000c300b6db6db6012492400db6db6816db6db00001b6c004924900124924b65b6db6d80036db6412c964b01b6db6d80002db68;
   0xd92c00192492580db6db68000100004964924804924900124924901b6db6d800125b2002490080092492482492492000db6db6092492482db6db68000b6db0;
   0x493e00192492580fffdf70000100004964924804924900124924901ffffff80012490000000000092492482492492003ffffc0092492482db6db60000b6db0;
   0x125b0036db6db60b6db6d800060300b6db6db6092492400db6db6816db6db00024900000920020124924b65b6db6d82db6db6c12c924b01b6db6d801b6db60;
   0x96c004b6db6d804b6db60004804004964924804924900124924901b6db6d80092400000490000492492482492492016df6d90092492482db6db6002db6d80;
   0x97c000925924807ffffe003f82f804964924804924900124924900ffffff80092400000080000492492482492492007ffff90092492400db6db6006db6d80;
   0x36580032db6d96036db6c00db45b6036db6db6092492000db6db6016db6db00124900004924000924924965b6db6d825b6db28124b25901b6db6d80db6db00;
   0x1f2c007924925c01b2cb0016da6db04964924804924900024924900b6db6d80092480002492000492492482492492012db6db0092492400db6db6c16db6d80;
   0x1f20003f2492fc01f7ff001ffffff00964924804924900024924900ffffff00092480000480000492492002492492010fffc00092492402db6db6c16db6c00;
   0x16480036d92db6016db6002db6db6816db6db00924920005b6db6006db6db00124900004124900924924805b6db6d00cb6d960124b25905b6db6d82db6db00;
   0xf20005ffcbff801b6da0036db6db00964924804924900024924800b6db6c004924800120924804924920024924920024b6580092492406db6db6c36db6c00;
   0xd60000fffffe801befc003ffffff009349240049248000249248003ffffc00492400000010000492492002492492002400400012492406db6db6c36db6800;
   0x6d00036db6db6016db4002db6db6806db6db00124920005b6db6002db6d800124900004024920124924001b6db6c000b25800024924805b6db6d86db6d800;
   0x16000092db64801b6d80016db6db0012c92400092480002492480036db6c004924000020124904924920004924900000b6000012492006db6db6036db6000;
   0x1e0000924924800fff8001ffffff001249200009248000049248001ffffc00092400000002492092490000492490000000000002492002dbffb6036db4000;
   0x2c00016db6db0006db0000db6db60005b6c000124920000b6db0000db6d80012480000480492412492000036db60000000000004924005b6db2c02db6c000;
   0x14000012492400036c00006d86da0002490000012480000492400006db6000092000002400490092480000092480000000000002490002db6d00016db0000;
   0x10000000000000017800003f83f80000480000002400000492400003cbe000012000000010000012400000012400000000000000000000597c00006d80000;
   0x4000000900b00000900000004800000100800000824000024000000000000004800000004800000000000000000000905800004900000;
   0x10000000000000000000000000000000000000000000000000000000;
   0x24800020000000000000000000074000000000000000000000000000000b2480000000000000000000000000000000480000000000000000000;
   0x12480000016db0002d800000000024000004905b0000000016d80000000000000012006db64800000000000000000000024000005b6c000000004800000020;
   0x924000004924800b6d800000000b0000002487f800000005b6c00000000000000480002492400000000000000000000012000006db6000000002000000090;
   0x24924801bef800000025b0000002487ff0000000ffef80000000000000480000000000000000000000000000000000012492000000000000002000;
   0x4924920004b6db00b6db60000005b68000004905b6c000005b6cb6002db6d800001b2006db6480000000000002492000012480002db6d80000000480002d924;
   0x2492480012492580db6db0000006db0000012487ffe0000064f65a00924924800024900b6d924000000000000924900000924000b6db6c00000012400036c92;
   0x12000012492480fbecf6000002db0000012483fffc000064b24f0092480080012480000000000000000000000000000000000092492400000000000012400;
   0x496d920024b25b00b6db6d800005b60000024905b6db0000cb2cb6036d92496016412000092490000000000012492400092490016db6db0000012400006db00;
   0x2492480092400480fb6db6c000125b0000092483ffff80016492db04924924824800000024924800000100004924920004924001b6db6d800005900000b6d80;
   0x480080092400000ff3df7c000125b0000002481fffc8001e4924b0492400002400000002482480000000000000000000000000092492480000480000092480;
   0x24b24924124800000b6db6da0006db60000924901b6c92000cb2c968b6d92492592492000d92496000492480092492480492492036db6db60005b6000016db60;
   0x124924920920000005fedb6c000925b0000492400ff24800124924b04924924920124800124924900124924024924924024924805b2db6580016db00005f6db0;
   0x4920000920900000ffdf7c000924800000000007f24800124924b04924000000004800120024900120000020000004000000004924924800924800025f2490;
   0x25965924165924800b6db6da0096db20000924000b6492000cb2596836d92492092db2482492492c12d924904924924a0492492036db6db60b6db60005b6db60;
   0x12c92c90092492000d97db7c024924000024920007d24900164924b0492492480496d920124924920924924864924924024924905b6db6d80db6d80006dbedb0;
   0x82400092492400c03fff80001240000240000039249001e4924b00924000800b64b0012410490082000002000000400000000496cb648249240000249e480;
   0x2592492412d924801965b6d80492d80002492400036492000db2596016db2490496db6c82492492c165924924924924a0492492436db6db65b6db0000db6db60;
   0x12c92490092492402492ffe402492400012490000192490016c92db00924924804b6db2012492490092492482492492c124b64905b7ffec82db6c00006db7d80;
   0x492400092492402490df0000002000012480000092480007fb2ff0092400080097d90012082090092400083c00003c007ffc00097ffe482492400002493c00;
   0x2496c92416d924904b6c96480092400002490000016492000db6db6016db2490496db24925924964964b24b21b2492d824b6db2436db6db65b6db00005b6d800;
   0x12492c90092492406492c82000492000012480000092480006db6db00924924804b6c92012492490492492412db24bec127ffc901b7ffed86db6c00002db6000;
   0x482400092492402090c00000400000012480000012000007fffff0092400080016410012492490412492400ffffff8007ffe00097ffe482492400002492000;
   0x4b6d92012d92490592592480092400002c90000002492480db6db6016db24904924924a0c92492832596c960b6db6d824b6db2416db6db05b6d800005b6c000;
   0x24b6480092492407c97c92002090000012400000012492406db6db0092492482092490406c925b0082492080db6db60127ffc900b7ffed06db6c000025b6000;
   0x10000092492403f9fc00002000000012400000000000007fffff00924000800000000024924900800004007ffffe0007ffe00017ffe402492000000492000;
   0x4924920025b24805b6d920004020000060800000004924805b6db6016db24900924925805b2db2002c92590036db6c024b6db2402db6d805b6d80002416c000;
   0x492400012492403fff800010000000080000000006492406db6db00924924804924920024924800124920001b6db60127ffc90017ffec02db60000120b0000;
   0x12492000ffe000010000000080000000003c92c07ffffe00924000800924900004104000004900000ffff00007ffe00007ffe000492000000000000;
   0x124800004924800b6c000020000000300000000005b6d805b6db6016db6db0002590000092490000000000006db60004b6db20005b6c000b6c000004000000;
   0x820000004900000b0000000000000400000000000ffe002492480092492400000000000092400000000000016d800005b6c000005900005b0000002000000;
   0x90000000000000000000000000000000000000000000002400000000000000000000000000000000000].
Definition emoji_rows_13 : list N :=
  [0x800020104800000b2000000000016db6db00000000000000000000000000000100000000100000000000000000000000000000100000000800000000000;
   0x12800010090400003ff00000000001ffffff80002000000010000000000000002c80000000580000016000002400000000000000490000002400000000000;
   0x1200001008040001fff80000000007ffffffc0003c00000010000000000000002490000000780000012000012480000000000000490000012480000000000;
   0x16480002c10c80002db6c00000000036db6db6002580000002c00000000000000cb6c000000b4000002d80006db6000000000000492400002db60000024000;
   0x4964000120904000364960000000007b65f65e0006c00000092000000000000012db6000000d800000b6c00096490000000000002490000096490000012000;
   0x24924800120804000f20178000000007fe5fe5c0007c00000092000000000000032497000000ff00000b2c0009e490000010000002492000092490000000000;
   0x596596002d90c80016c92580000000036cb6db6092db00000924b00000b60000065b6d80016cb6c00016db00b6db6c000b6d90000492d80036db6c000124800;
   0x124924900120904001f0002c004000007925b65e0016c00000c92580000ff0000096db2c001b6db60005b6d80492496002d96d800124b6c00492492000092400;
   0x124924900120804001f0002c02c924007901f25c0007c00002c92580003ffc000092492c004beffe000097c80492492003f9e7800000bfe00492492000000000;
   0x2496592c02d90c80036c925b2db6db2036496db60925900005924b20005b6c00016d92da0092cb6c00096db61b6db6d80db6cb6012496db0092db64000124900;
   0x124b2c920120924001b0002e16cb24b07b25b6de0492480002492f80007ffe000092496c00c165b40024b6da2492d92416db6db00924b6d80492492000492400;
   0x124924920120924003b0002e164924907f3dfe5c0002400002097c80003ffe000092492400c1e19000601ec82492f92413dfffb80000fff80002480000000000;
   0x2496592402d96d80036c925b2c96db6c36db6db60124920004925960025b6c80016c925b01b2cb0000d92db65b6db6d82db6db6c12496db00924924800924900;
   0x124b24900120924007b6482e324b64967b6dfede0092490002492580012592400096492402d90d80016496d82c92c92436d92db60925b6d82492492400492480;
   0x124924900120120007b0480e300124967ffffffc0080000002002580012492400092492403c92f8003f00258249249243fc825960800fec80000000000000000;
   0x2c92492402c02c00036c924b64925b6436db6db60924924804b2db60164924b2016d925a0192db0006d925b05b6db6d86db00b6c16c96db00924924800924900;
   0x124924900120120001b6490e324924967b7ffffe0492490002596c900b24924000b2cb2402092d800b6c92c024b6496436c805b6092492482492492400492480;
   0x4924800120120001b0480e32092496797db6dc00004900020924900b24924000f24964020901001ffc004024be49e43ef92cfe092492402400002400000000;
   0x6496d92402c02c00016c925a6492db6c36d924964924924804b6db6096c925b2006db6d801b6c90036db24805b6db6d86db6db6c06db6db01b2492d800924900;
   0xb24924960100120001f6083c324b6c96793c924a00924900024924800b2492c000324968025964005b6c92002492496436db6db6016db6c02492492400492400;
   0xb00000060100120000f6003c3e4924b66930000c0090000002492480016496c0001e4b2017f87c007ffe80002492492417cb2ff2012492000492492000492400;
   0x6c92492c02c02c00016d92d82db24b6c36d924964924924905b6db6092db6d92002db6c06db25800b6db24801b6db6d82db6db6c00db6d800b6db6c000124800;
   0xb24924960100120007fecbe01fdb6db4797c924a0002490002492480416db6000096db00b6d86c005b6d920004b2492012db2d900024920005b6db6000092400;
   0xb6000016010012000fffdfe01ffffff87970800c0000010000492480002490000082d900fff960005fff800004f2492012fffc90002490000492492000092400;
   0x6d92496c02c02c005b6db6c00db6db6c36d92496492492480092490012492490010092006db2c00016db64000b6db6c025b6db24000b6000036db6c000124800;
   0x36c924b6010012007fc2fb0007fffff07b7db6de2000000400492480090000480480000016d000000b6d90000492d92012492490000080000092490000092400;
   0x36c805bc010012007f80400007fffff07ffffffc0000000000492400010002400400000003e000000bff80000092790002492480000080000092490000092000;
   0x2db6db6c02c02c00db00000005b6db6036db6db60b2492580092490002db6d800800000005b0000002db0000016db6c004924920000b6000016db60000124800;
   0x16db6db0010012007f80000002ffff807ffffffe0492492000492400002490002400000002c00000016d00000092490000492400002490000092490000092000;
   0x3fb6f80010012007f000000007ffe007ffffffc0092490000492400000000002000000003c00000017c00000012480000010000002492000012480000012000;
   0xb6db0002c02c005b0000000016d80036db6db4002490000016d800000000004000000001800000005800000004900000000000004b64000004900000024000;
   0x92000010000000400000000000000092492480000000000012000000000000000000000000000002000000000000000000000000000000000000000000000;
   0x90000000000000000000000000000000000000000000000000000000000000000000000000000000000000000000000000000000000000000000000000000;
   0xb6db0000010000000180000080030002c001801900005800100000000000301824921324000000008124800024924805920000004000000024920005b60000;
   0x2db6d80000480000002c00000400400036002c02d80016c00080000000000582412492010000000410492400012492402c90000006000000092490012c90000;
   0x3ffff80000480000002c0000040048003e587c03ff00bfc00000000000000582400010012480000080000000000000002490000002000000000000002480000;
   0x5b6db60000100000025b00000b24b0006db6db01b6db6d800924800000000b61b24925324b40000104924800024924805b6000000592400012492400db60000;
   0x6db6db0000480000096c900004924000b6db6c02db6db6c00490400000000582492492012490000080492480492492402492000013c92400080012012480000;
   0x1ffffff8000480000492492000192c800127f2403ff24ffc00480400000006002400012012480000000000080400000012490000002c00000080000002480000;
   0xdb6db6c001b60000b6db6d805b6d960124b64921b6db6d80492492000000d001b24925b05b2400090016492492492482db24900024b2490012db6c005b60000;
   0x16492490000db0000492492006192cb04925b2482db6db6c02492480000006c024924924124920005000924124924920364920000100004000b6db0002480000;
   0x1e000000000c900024b2492402182c900007f0003ff24ffc00490400000003c024800124124120000000924020124900124000800104004000ffff0002480000;
   0x2c924924001b28005b6db6d80db65960924b64921b6db6d804b24920000025905b2492db0d92c80002492d82482492482db2490000db2480016db6c005b00000;
   0x36000000002d900025f65f24161b6cb04925b2482df6df6c124924900000924824924924124924000124924120924920005924800025920000bfff0002480000;
   0x3e000000003db00025fa5f24124824900007f0003ffe5ffc000000000007800024000024120824000000024020124920004924800025820000bfff0002480000;
   0x2d924924005b6c005b6db6db0db65b60124b64901b6db6d824924924005b60925b2492590c96590012492d82482cb2c80196496000192c00006db60005b60000;
   0x36492490006db60025fe5f2416db6db0092db2483ff6dffc02492490007ff0482492492402492480492492412092492000492480000490000017f80002480000;
   0x3e030000002d920025fa5f24064924b00007f0003fbffffc0249248001fff0002400002000410480480012402012492000492480000490000017f80002480000;
   0x2c964b24005b64005b6db6db0db6db60124b6490196db65804b2db6002db60905924925904b2cb2092492d92482cb2c801b6db60000360000005b0000cb60000;
   0x364b2592006d960024b3cb2416db6db00925b24800b6db0006592ca00b7ff04824924924024924904124924820924920024b2480000080000002400012490000;
   0x18000000002c96002493c92412fb7f900007f00000ffff0006710ca00c3fe0002400002000482090412492482012492000492480000080000000400012490000;
   0x2c924924025b6d805b6db6db25b6db24124b6490016db6c004b2db60165b6090592492580096596482592d90482cb2c801b6db6000010000000180002db65b20;
   0x16492492012db6802492c924124b64920925b24801b65b4006592ca0592f80002492492400492492412492402092492000492480000080000000400012492490;
   0x140020000124b60024924964124924900007f00001fe7fe002710c80600780002400002000090410412492402012492000492480000080000000400012480000;
   0x2492592002d96d805b6db6da2c92492c124b6490036d36c004b2db60b24b0000192492580012cb2482d92480492cb2c800b6db0000010000000180002db64924;
   0x492490036cb6c025f7dfe4964924b20925b24805b65b6006592ca0492580402492492000092490412480002492492000092400000080000000400012492490;
   0x36cb6c025ffffa4024924920007f00007fe1fe002710c80700700002400002000012080412480002492492000010000000080000000400012480000;
   0x2412492006db6db01b6db6d825b24b64124b64900b6c36d804b2db60124b0000192492580002592092d90000092cb2c80000c00000010000000180002db64920;
   0x924800b6db2c005bef920125b6c900925b2480db61b6802592c80092c00002492492000012480492480000092492000010000000080000000400012492490;
   0x7c000049e7920104924100007f0000c3c1f3c02710c800e3c00002400002000002400012480000012492000012000000080000002400012490000;
   0x24124900000b60000b6db6c004924960124b6490182c160804b2db6002d80000192492580000490002590000002492480016d800000b6c00000db00005b64920;
   0x124000007e00004924920024924800925b24000300a0002592c80016000002412482000002400012480000012492000092400002492000012480002482480;
   0x7800000924900004924000004900000100c000041040001e000000000002000000000012480000012492000092400000490000012480000000000;
   0x4000000100000024920000124800000000000000000000000000004000000800800000000000024900000024924000024800000920000004900000000900].
Definition emoji_rows_14 : list N :=
  [0x10000000000080000000000010000000000000000000000000000000000000002400012492490092492480012400000092000000490000012400000092000;
   0x1000000000008008001000001000000000000000000000001000000040000001fc00036d92db65b6db6d800bff800005fec00003ff20000bff800005fec00;
   0x2c00000090036190c02c00006400000082000030006000002c000020b0030002db0006db6db2cb6db6db6016db6c001b6db0002db6d80016db6c001b6db00;
   0x92000002480482c90030000092000000c3000058003000003c0000104804800b6d800b6db6c165b64b6db05b6db6002db6d80036db6c005b6db6002db6d80;
   0x920000024800805b00100000820000004100000940100000360000104804800fffc00b6d92c065b6496db07ffffe007fffff003ffffe007ffffe007fffff0;
   0x16d800124965900b6802c00012410002482480012c02c00016500002014080016db6006db6db2cb6db6db60b6db6d80db6db6806db6db00b6db6d80db6db68;
   0x492400092496082dbc0b6000092480092432400496034000583c000004904000b6da00b65b6c165b2492db0db6db6c16db6db00b6db6d80db6db6c16db6db0;
   0x492400000086003ffe093000082480000400000412010002480c800004bc4000fffe00b6192c964b2412cb0ffffffc1ffffff80ffffff80ffffffc1ffffff8;
   0x36d80002496c905b6c36d80016492092cb6592080582c82490092410c36c80016db6006d96d96cb2c925961b2492482c924924164924921b2492482c924924;
   0x492400012482587ffe7f7c000924804be497c80006c16012582c900025be4000b6da00b6cb6cb65924925b2c00000016000000180000002c00000016000000;
   0x492400000092483ffe7ffc0009200003e487c000064120127c3e900007be4000fffc00b6c925b65920025b3c0000001e0000001c0000003c0000001e000000;
   0x36d80002496d905b6cb6da0096d92016cb65b20024b24825b65b64020b6d20016db6006db6db64b64924b61b2492482c924924364924921b2492482c924924;
   0x920000924924864164924025b64800be597c80016582012d82592002ff64000b6d800b64b65b25924125b2c924924364924901b2492482c92492436492490;
   0x10000000092002002400402492480010182c00032182016fc27f2003ff700003ff800b64925925800005b3e0000003e1ffff01f2492403e1249203e000000;
   0x12c00012492d904b64b65a04b6db6012492490006db6182cb41b64b65b6d86002db0006d92cb2cb64924b65b2492482db6db64365b6db25b2db6c82d924924;
   0x92000000000086416482402492db009219248003e582c16580db2012fb6cb0016c000b6c924b65b2412db2c964b24365f6fb21b2db6d82c964b24364b2590;
   0x9200000058000208601000009249000008000007e082c1fc90ff201efb2cb001fc00082c825f65f20025b3c0603003fdf6fb6192793483c964b243e030780;
   0x165800005b0010192c12c80c96db6012010010006c06582db0cb6c30db6d860005800064924b6cb64924b6592492492db6db6c36db6db65b6db6db2c964b24;
   0x82000006d92082c901924025b64800001800000b60b2c16c805b001fdb6c000020000924825b65924925b2c924b2436db6fb61b6db6db2c964b24364b2492;
   0x820000924b30024900d64024924800000800000fe01001f08009001fff24000020000b6c80496492412cb3c0000001edb6dbe192492483c92492418000000;
   0x16580012496590592c36580db6db6000036000016c06180c16082012db6db0000580006d924b6cb6d92db6192492482db6db6c36db6db61b6db6d92c924924;
   0x920000924a6c82496596c024b64800004800001b0030c0008248009edb65000068000b24925b65b6496db2c924924165b7db6192db6c82c92592416492490;
   0x920000124c6c024924924024924800004000001f8010402082000003ffe5800020000b2c925b65b6416db04004800000f7f80000492400412490000002000;
   0x165800024965b0592c36480db6db6000026000036802c80c321804101b6db0000400006d96d96cb6cb65b64824924824964b20124b25904824924824924920;
   0x924000925b2c82cb6592416db6db00004200005b0034c060804060805b6d800020000b6592cb65b6cb2db0012492000492490002492400012492000492490;
   0x924000924ffc02492492412492490000420002ff00304000024004800ffc800000000b0592c965b2cb2db0000000000017c00000090000000480000000000;
   0x6db0012496d904b6436582db6db6c000820005b6002d80096496090002db60024000064b2db24b6db6db64824924024125920120924904824924024124920;
   0x924800924b6c82db64b6c36db6db0000430000580012c004820a0402016d800800000b0596d825b2db2db0012492000092480000492400012492000092480;
   0x104800924b6002db65f6412492490000410000780010c00402080082002f800800000b0616d825b3dbadb0000000000000000000000000000000000000000;
   0x2cb20000000105b6c36d82db6db6c00082000030000c800000800100000b60100000065b2db64b6db6db60004920000024900000924800004920000024900;
   0x124000000000824901b6412492490000000000000000c00002400480000180000000036db6db65b6db6d80000480000002000000090000000480000002000;
   0x12492490092492480000000000000000000000000000000000000000;
   0x5b0000000000000010000000000000010000000000000092492480492492000012000000000000016c800000000000920024824924924;
   0x36db00000000000000800000000000001800000000000024924924024924900004b00000024000004b6400000180002db00b6c36db6db6;
   0xf0010000000000000490000000000000180000000000000080010000000000000ef00000124800004fe4000007c0003c90097c325b6db6;
   0x400000010000032000c000360000004b64000000100000360000000000004924924904924920005b6c000024920000b6db00000b60005b6c16d864b6cb6d;
   0x360000000000007000000105800000025820000000060005b0000000000002492492412492490002c960000124800004b6400002db0007cb01b3cb25b25b6;
   0xff800090000000c000000fe49000000008240000001fc005f00000924924827f00be40049a400003d9e0000124800004fe400003ffe0078b65b3e800b24b6;
   0x16d80016c10010080000406db68000024101b0000012d800b6c00036db6db65b6cb6d90492c920005b6c000124920000b6db0000db6d80596db6db6496d96d;
   0x25b6c00496000400c00000096cb00000b4082d00000012c005b60006e6d926e2fb24be412492490002d960000900900004b6400016db6c079b6db4e924b64b6;
   0x7db2c0049f082401800000002c90000090483e00000010402fbe0006ccd936e2ff259f4000be4000064b20000800900004fe40003ffffc073ffffee800b64b6;
   0x2db65a00b6d965901800004020b2c800060925b0000012592db6d80036db6db65b7cbed904b6d92000db6d000120120000b6db0006db6db05b6db6db6496d96d;
   0x16db2c004be082003000010010592400080010000000032c36db6c004b2492c82ff25ff4125b6c90006cb60000900900004b64001b6ff6d87df6df6eb25b6cb6;
   0x125b2c004fe0800030000960000d240008208000040001043fdffc00030000c007f00fe0005b6c000024920000100800004fe4001ffffff87ffffffeb25b2cb2;
   0x2cb6d800b6d80412180096d82016db40104364101b2496486db6db0012c925924be497c904b6d920025b6c000024120000b6db0036db6db65b6db6db6db64b6d;
   0x365b6c005f2c00082000cf64100b2d80082582082c96c92036db6d800b2492c82592492412492490036db64000124800004b64005b6f96d87df6df7cb6d924b2;
   0x1e7ff8003f3f000830004f240001e4800027c000101249201ef92f80030000c00000000000018000036db6c000124800000fe0001ffff3f87ffffffcb6d924b2;
   0x2db6d80436db04965801b6d82032db0036436436192db6c02db6db6012c925924924924904b2db2006db6db0002490000006d00016db6db05b6db6da6db6cb6d;
   0x16fffc16197f82402000c92410096d80582580580896d92016db6db00b2492c82492492412492490006db6400002400000036000036db2c03df6df7cb6db25b2;
   0x3fffe1e00ffc2003000492400002c80080080080802482003f93fb0030000c00080010000018000006db640000240000001200001fffe403ffffffcb6db25b2;
   0x25b6db6c00db64805900b6d824b25b00160b64301924924805b6db6c12c92592492492490492c920065b6ca0000490000002400002db6d801b6db6d86d96db6c;
   0x37db7ffe007ff00034804b6410082580002490400092492402db6db60b2492c825924b2412492490032db640001248000009200001edb6402df6df78b64b25b6;
   0x3f7f7ffe003ff80034804924000005e00004904000000000007ffdfe030000c027f00fe40049a400012db040001248000009000001fffe000ffffff0b60b2592;
   0x6db6db6c001b6c005b6036da2030096c024920800120100800b6db6c12c925925f6c96d904b2d92002cb6180002492000012480002db6c800b6cb6d86c96db6c;
   0x37df6ffe0007fe0025801920100824b60904124004800004005b6d905fedb7fa2cf25f341249249001458200001248000049240001fdbe400dfe7f60b64b6d96;
   0x337f67fe0007fe00348009200000201e0fe0124004000024000fef806ccd936e2ef25f740001800000200200001248000049240001fffe4007fe7fe0b8036c92;
   0x5b6db2c00016c001b0006c02030082d06d92db0080010580016db0036d93db65b7cbed90492c92000592c00012412000012480000db6c80036cb6c06c96db6d;
   0x3c9651e0000fe003c000920100824120324904004000024000b6c007fedb7fe2ff24fe4124924900005b0000090090000492400007ffe4005b65b60b2496db2;
   0x3dbfe0600003e001c00092000000010002580000400000000017c000924924807f00fe00049a4000007c0000090090000012400003ff84007fe7fe0b001edb2;
   0x1b6db0400002d80180036d824b2492400436400480010000002db00000000004b6496c90492c920004b64000020120000124800001b6880036db6c06492db6d;
   0xdb6c00000002c00c00182c10082410002082002000000000016c00000000002492492412492490006db60000100800000924000007f04005b7db60b6db6d92;
   0xc00c00000400000010002002000000000000002c00000000000000000000000000016db60000000000000820000001804003ffffc032496d92;
   0xb0080000082030080402d80d80000010000000580000000000492492480492492000db6d80002002000002400000010080036db6c06db6db6c;
   0x400000000000000010012002400000000000000000000000000000000000000000012492000000000000010000000000000092490012492490].
Definition emoji_rows_15 : list N :=
  [0x12492400000000000000000000480000000000000000000000000000000000000000000000000000000000000092000000000000002400012492490;
   0x6c90000006db6db0000400000002c000005b6c00000000000012480000000000000492482480000000480000002d800005b6db6000000000002db0002db6db6c;
   0x924920000b6db6d000020000000b6000007ffe000000000000492400000000000002492412c80000002400000012000007ffffb00000000000b6d900b6db6db6;
   0x124924000ffffff0000000000009200001ffffc00000000000012000000000000002492403f8000000000000000200000effffb00004800000b00b0092492492;
   0x6db6d80016db6db0090480000036d80006db6da0092492480496d920000000000004b2d925b2480002490000000180000db6db60005b6c00016002c06db6db6c;
   0x924924000b6c02d004020000005b6c000fffffe03ffffffc025b6c80000000000002d96417f92c80012480000000800006db6df00124920005800160b6db05b6;
   0x124924000ffc00f000000000004924000ffffff87ffffffe0049248001249200000249241fc03f80012400000000000007fffff0012d92400400006092480092;
   0x65b6d80016d924b0090d800001b6db0016db6db0db6db6db05b6db2007ffffb0000592c90592db2412c92000000080000db6db6006db6db00b0000406cb6496c;
   0x904924000b6000500406000002d82d801ffcbff86db6df6c12db6d900f7ffff00002492400097f92092490000002400007fffff0092d96c80c000020b00800b6;
   0x100004000fe0007004020000024824903fe017fc0cb2cd60025ffc801f3ffef8000249240001fc02002000000000000007fffff0092f92480c00002090080092;
   0x6000080016d924b00b05b6c00db25b6036cb65b6cb25965b25b6db643e5ffdfc000492580000592c12590400000490000db6db6016db6db01801b0586492496c;
   0x900004000b6000500c16ffe006d92db07fe7f3fe24b2492416d92db21f6ff6f8000249240000009e492412000012480007fffff04b2496c80c024820b00800b6;
   0x100004000fe000700017ffe0064924b07f86f3fe04324c2002f92f903fe7f35c240249240000001c002000000000000007fffff04f2492480c82482090080092;
   0x6000080016d924b01b2db6d80db6db60b6cb65b6db25b6db2db2cb643edbedbe492496c82d92d92c124924800124920005b6db60b6db6db61961b0186496496c;
   0x900004000b6000d02d97fffc06db6df07f27f2ff2cb2496416c925b27f7ffefc24924b201fc9fc9c092092400482412007fffff04b2492492c90482cb0080596;
   0x100004000ffc00f0249ffffc00c927f07f07e0ff0c330c6012c927903f3ffefc249249201fc1fc1c000002000000000007ffffe04b2492487c10083e90000482;
   0x6000080016d925b0492dbefa0cb6db20b64b64b6cb25964b2db6cb643edffdfe5b2d96402db2db2c124925900924924805b6db60b6db6db6d820101b6c924b2c;
   0x900004000b6d96d024bffffc00db6fb07f2cb2ff24b2c92416cb25b27ffffffc2d96c92017c97c94010492480412482007ffffe0492490497c10083eb0000006;
   0x100004000fffbff0003ffffe06fb7e307f0cf0ff0630cc3012e927907feff7fc2492490007e07e00000010400000000007ffffe0492490087c10083e90000002;
   0x6d80080016db6db0496db6fb0db6db60b6cb65b6cb24965b2db65b6437dbedf6592492006db6db6c02492cb20924924805b6db60b25b6c16d820101b6c92492c;
   0x924004900b6db6d024bffffe061b7ff07fe5b3fe24b249241fd92db27feff7fe24924000b6db6db4002492480592492006db6da0492492007c10083eb0000006;
   0x124004900ffffff0003ffffe061f7ff07fe083fc04324c203fdf7c907feff7fe24924000b6db6db4000012000fb7ffe002db6d80092402007c10083e90000002;
   0x6db00b6c16ffffb0492db6db05b6db6036d92db6cb65965b7fb6db64b6db6db6496480006db6db6c004925920b6ff6d805b6db6012580580d820101b6c92492c;
   0x924804920ffffff024bffffc02db67801ffcbff86db6df6c7efb6d907ffc3fff24b24000b6db6db4000492480db7fb6002db6d80092402007c12083eb0000086;
   0x124004920ffffff0001ffffc00c367801ffffff87ffffffe7efb64807f3c1eff05920000b6db6db4000012000ff7fbf016db6db0092412007c12083e90000082;
   0x6db00b6c1ffffff0492dbfda00b6cb0016db6db05b6db6db7df6db20b60000b60b6c80006db6db6c000924901b6ff6d82db6db6c06d92d80582d96c86c924b6c;
   0x124004920ffffff0249ffffc00436c000fffffe03ffffffc17fb6c807800005f04920000b6db6db4000092400db7fb68bedb6dbe0124924000120920b60005b6;
   0x124004920ffffff00007fff8000b7c0003ffffc00000000007f924007800001e04920000b6db6db4000000000f9ffbf0fffb7ffe012492000002092092492492;
   0x4800b6c1ffffff00905b6d80016d80002db6d800000000007f2490010000012092400006db6db6c000124801b6ff6d86db6db6c005b6c00000016c06db6db6c;
   0x4900ffffff00402ffe000036000007ffe000000000007c92400000000000490000036db6db0000012000dbffb6817fffff00004900000000920b6db6db6;
   0x800fffffe000007f0000010000002ff0000000000003000000000000000090000036db6db0000000000496d92002ffff80000000000000090012492492;
   0x2db6d800000160000000000000b6000000000000002400000000000002000002492492000000000000000000096d900000000000000020024924924;
   0x2000000010000000400000002000000000000002400000000000000480000000000000000000000000000000000012492492000000000000000000000000;
   0x2002400030090000480480002002400000000000013c800000000000004900004000020001800000c00000000000000fffffffe090000000000000000000400;
   0x580da0006c16c000b60b6000580da0006480010016db60000800000005b6c801b0000580034000032000000010000006db6db6d160000000000000000001b00;
   0x6d16c000b60920005b04a0006d16c001f2590480093c900004000000124924025800124925b24924900000000800000fffffffe1b0000000000000000000480;
   0x2f92400017c920004f0480002f924001f01f0080493c920000100000124924024b00b24127d24924800000000800000f7ffeff67f0000000000000000000480;
   0xb6da00005b6c00006db60000b6da00164b6c900b6db6d00006c00002db6d805b6db6d80036002c960000000900000065b6cb6536000000590000006c000b00;
   0x1b6c00002d90000016c800001b24001f25f2480f93c960020b20000924920024b6db24006e0012490000000480000093cbe7d25b0000002480000092000080;
   0xbe8000007b0000003c800000be0001f01f0080793c9e0000920000824920804b6d920006400121100000004800000c3c3e7c24f0000002480000012000080;
   0x2d90000036c800005b2000002d90016db6cb01b6db6d80016d800125b6c900b6db6d80036002c12c100004920000065b6cb6512c00000492000002c000100;
   0x12480000492000002490000012480097cb2482593cbe4001b2000082492480496d920925f2492002480002490000093cbe7d2012000000080000002080080;
   0x7c07c82593cba4000b20000824924800924920125f24920024900000900000c3c3e7c2002000000090000002090080;
   0x92492000c92480016492400092492012db2db05b6db6da0036c000125b6c92092db6c00016002c005b60000124800065b6cb6500596000016402480416c100;
   0xc92480016490400192480000c92480097c97c82593cb24005b60004924924804924920000f0012002590000092000093cbe7d20025b0000090092402090080;
   0x410000002000000002000000410000007c07c824d3cb24004b00004924904800024920000f00120025900000920000c3c3e7c20005f8000010092402090080;
   0x16c920004b2480400d92400016c92016d92db05b6db6db20b6c000925b6c920925b6c00016c02c005b68000104820065b6cb65000b6c00002c92490402c100;
   0x100b6580400db2c02016c920100b65801f2596c87ffffffe10db00004924904804924920925be492002c90000092400093cbe7d2000496000012092402010080;
   0x20b60c0090cb0c0041659e0020b60c01f01f0087ffffffe32490000492490480480092012fde4920026900000924000c3c3e7c2000096400012012002010090;
   0x2d96d96096d960804b2cb0c02db6d960164b6c905b6db6db6db6c000925b6c920b6496c000b6c02c005b2c900124904065b6cb6500032db0000482480400c16c;
   0x16d960005b6cb0402db6c00016d960001f25f24825f3cb2416db2000492492480492492000db6012002492480090480093cbe7d2000c92d80002412002010092;
   0x12596000096ca0000cb2c000125960001f01f00824d3cb2403f92000492490480492012000db60120024924800924900c3c3e7c20004807c0002412002010092;
   0x2db6d00096db60005b6db0002db6d000160b6cb05b6db6da24b6d800125b6c920b6c92400196c02c000b65b60124920065b6cb65001925b60004924805b0c16c;
   0x12db60004b6db00025b6d80012db60000000b2482593cb24125b6400492492480492492092db6492000092480092090092c925920004821b0002492402490092;
   0x2596000016cb00000b2c80000596000000000082593c9a4000bec00082492480492400012fba49200001a4800120900c0c181820000825f0000482402490010;
   0x24b6d900925b6c80496db64024b6d900000000301b6db6d82492d900125b6c900b6db24000b6002c00002cb6002492406592c92500002cb60000904805b0c000;
   0x124b6d80492db6402496db20124b6d80000000480793c9e012492c80082492080492492000580012000012d80012412092c92592000082fb0000492402490000;
   0x1e4800005b2400002d9200001e480000000080f93c9600000079c012492000492490000600012000012f800024120c0c18182000093fe0000492400412400;
   0x2492db6492496db24924b6d92492db64000000300b6db6d024924b6c02db6d800b6db6c80026002c00002db4000092486592c92500002db6000012480080db00;
   0x12492db2492496c824925b6412492db2000000480493c920124924b20124924004924920924f2492000012f80002492492c92592000092d80000092400012400;
   0x490000012400000092000000490000000080093c900000000000124920004924920126f24920000125800004800c0c18182000013f80000092400012400;
   0x24924b64124925b2492492c824924b6400000030016db60024924924005b6c801b6db6d80036000000000db0000010086592cb25000025b0000012480000db00;
   0x12492490092492482492492412492490000000080013c800124924900024900004924920001f00000000024000000000f7dbefb6000016c00000092000002400;
   0x80000000000000000000012492492000002000000000000000000].
Definition emoji_rows_16 : list N :=
  [0x1800000020000000100000001800000020000000100000001800000020000000000000000800000000000000100000001800000020000000900004004800;
   0x7c0000003e000000580000006c00000034000000580000006c00000034000000080000002400000010000000780000007c0000003c000580480006002400;
   0x7e000007fe0000007e0000007e000005fe0000007e0000007e000004fe0000000000000000000000000000007f0000007e000005fe000780480007c12400;
   0xfb00001ffc000000b6000000db00001b6c000000b6000000db00001b6c000000920000004800000924000000b6000000db00001b6c000b61b6000db2db00;
   0x6c00000ff60000005a0000006c000005b6000000580000006c000005b2000000480000002400000492000000780000006400000ff20005b2490002d96c00;
   0x7c000000f60000007800000064000000f20000004800000064000000f00000000000000000000000000000004800000060000000f000003e480000592c00;
   0x580000006c00000036000000580000006c00000032000000580000006c00000012000000480000002400000010000000480000006400002d90000016d800;
   0x64000000b0000000480000006400000030000000480000002000000010000000480000002000000000000000400000002000000000000006d800000b6c00;
   0x120000000e0000000400000012000000080000000400000012000000080000000400000012000000080000000400000012000000080000002f80000016000;
   0x6d000000160000005b0000002d000000160000005b0000002d000000160000005b0000002d00000016000000590000002d000000160000004b2400002d900;
   0xb60000005b0000006c000000b60000005b00000024000000b20000005b00000024000000b20000005900000024000000b2000000590000002490000092480;
   0x960000007b0000002400000092000000590000002400000092000000590000002000000010000000590000002000000010000000590000080000000400000;
   0x6d960000b6080000db2c00006d960000b60800005b2400006c900000b6080000590400006c100000b2080000590400002c100000b20800164924001924920;
   0xb6d80000db2c00006db00000b65800005b2c00002c900000b6480000592400002c900000b6480000590400002c90000036400000590400012482000492480;
   0x92c000007f60000024800000924000007f20000024800000924000007920000024000000120000007800000024000000120000007800000024000000b0080;
   0x16c800000b6c00000d90000016c800000b6c00000590000016c800000b6400000590000006c800000b6400000580000006c800000b6400480db2c02416d960;
   0xb6000000d80000006c000000b6000000580000006c000000b6000000580000002c000000b6000000580000002c00000036000000580002416d960161b6880;
   0x120000007800000024000000120000007800000024000000120000007800000024000000120000007800000024000000120000007800004965860125860c0;
   0x6d800000360000005b0000006d800000360000005b0000006d800000360000005b0000006d800000360000005b0000006d800000360005b6cb0402db6d000;
   0xb6c000005f0000006d800000b6c000005f0000006d800000b68000005f0000006d800000b68000005f0000006d800000b68000005f0002db6c00016d96000;
   0x37c000007f8000006f80000037c000007f0000006f800000364000007f0000006f800000360000007f0000006f800000360000007f0000496c00012d96000;
   0x6db00000b6c000005b6000006db00000b6c000005b6000006db00000b6c000005b2000006d800000b64000005b2000006d800000b64004b6db00025b6d800;
   0xb2c000005160000060a00000b24000005160000020800000b24000005120000020800000124000005120000020000000124000005020024b6d80012db6400;
   0xf0400000406000002080000090400000402000002000000090400000402000000000000000000000000000000000000000000000000000012580000492c00;
   0x5b60a0006db0c000b6c060005b6080006db0c000b6c060005b60800065904000b24020004920800064804000b2402000492080006480400492db6c02496db20;
   0x2da0c00036c06000592080002480400032404000492080002480400032400000492080002480400032400000410000002080400032400002492db6012496d90;
   0x2000c000200000004000800020004000200000004000800020004000200000004000000020000000200000004000000020000000200000000004920000164b0;
   0x400080006000c00020014000400080006000c000200000004000800060004000200000004000800060004000200000004000800060004004924b6d924925b64;
   0x2000c00000010000400080002000c00000010000400080002000c000000100004000800020004000000100004000800020004000000100024924b64124925b2;
   0x40000001e00000009000000040000001e000000090000000400000016000000090000000400000016000000090000000400000016000000012000000080;
   0xb00000005800000128000000b00000005800000128000000b00000005800000128000000b00000005800000128000000b00000005804924924824924924;
   0x0;
   0x0;
   0x580000002c000001b6000000580000002c000001b6000000480000002400000092000000580000006c000001b60000004800000024000000100000007800;
   0x6c00000036000002da0000006c00000036000002da0000002400000012000002480000007c000000be000003fa0000002400000012000012480000007e00;
   0x7c000000fe000003f80000007c00000072000003f80000000000000000000000000000007c000000f8000007f80000002400000012000002480000007e00;
   0x580000006c000005b6000000580000006c000005b60000004800000024000004920000005800000064000005b2000000480000002400000492000000fb00;
   0x80006c00000036000000580080002400000032000000480080002400000010000000480080006400000030000000480000002400000010000000480000006c00;
   0x80002000400030000000080080002000400010000000080080000000400000000000000080002000400000000000000000000000000000000000000000006c00;
   0x6000d80080016c004000b2006000d80080016c004000b0006000d80080016c00400090006000c80080012c004000900000004800000164000000900000005800;
   0x8003ec004005b6006002da008003ec004005b6006002d8008003ec004005b6006000d8008003ec004005b6006000d800000160000000b0000000c00000016000;
   0x900fff004007fe002002fd00900fff004007fe002002fd00900fff004007fe002000fc00900fff004007fe002000fc0000012000000090000000c00000016000;
   0x6096db00b05b6d80582cb6c06096db00b05b6d80582cb6406016db00b05b6d805824b6006016db00b05b6d805824b60000024000000b20000005b0000006d000;
   0xb0487d805964fec06c90f900b0487d805964fec06c90f900b0487d805864fec06c80f800b0007d805864fec06c00f800000b20000005900000024000000b6080;
   0x9000f8904800f8c02400f8209000f8804800f8c02400f8209000f8804800f8c02400f8009000f8804800f8c02400f80000010000000480000003400000096080;
   0x6c00d82cb6016cb25b00b0586c00d824b6016cb05b00b0086c00d824b6016cb05b00b0086c00d824b6016cb05b00b0080006c900000b6480000592400006db00;
   0xb603e8025b01b0086d83d804b603e8025b01b0086d83d804b603e8025b01b0086d83d800b603e8005b01b0086d83d800000b6400000590000002c800000b6c00;
   0x9247f8004907f0002487f8009247f8004907f0002487f8009247f8004907f0002487f8009247f8004907f0002487f80000012000000480000003c00000092000;
   0x6db6d800b6cb68005b6db0006db6d800b6cb68005b6db0006db6d800b6cb68005b6db0006db6d800b6cb68005b6db0000006c000000b6000000580000006c000;
   0xb6df38005b6c30006dbe7800b6df38005b6c30006dbe7800b6df38005b6c30006dbe7800b6df38005b6c30006dbe780000036000000580000006c00000036000;
   0x825c3000492c3000249e3800825c3000492c3000249e3800825c3000492c3000249e3800825c3000492c3000249e3800000160000005b0000007c00000016000;
   0x64965800b25b2800492db00064965800b25b2800492db00064965800b25b2800492db00064965800b25b2800492db0000006d800000b6c000005b0000006d800;
   0x90493800402cb000209e580090493800402cb000209e580090493800402cb000209e580090493800402cb000209e5800000b64000005b0000006f800000b6c00;
   0x90093800400cb0002012580090093800400cb00020125800900938004004b00020025800900938004004b00020025800000b20000005b0000007e000000b3c00;
   0x6c925920b2592d80592cb2406c925920b2492d805924b2406c925920b2492d805924b2406c925920b2492d805924b24000020800000b24000005920000060b00;
   0xb64824b2592032486c901964b64824b2592032486c901964b64824b2592032486c901964b64824b2592012486c901964000904000004020000020000004b0400;
   0x964820924b20104924900824964820924b20104924900024964800924b20104924900024964800924b2010492490002402000000010000000400000002db0400;
   0x6db2592cb6c964965b64b25b6db2492cb6c924965b64b25b6db2492cb6c924965b64925b6db2492cb6c924965b64925b04920800064804000b24000005b60800;
   0xb6d924165b64900b6db24804b6d924165b64900b6db24804b6d924165b64900b6db24804b6d924165b64900b6db2480402000400030000000400080002000c00;
   0x92592402492c90012496480492592402492c90012496480492592402492c90012496480492492402492c90012496480402000000000000000400000002000c00;
   0x6db6d924b6db6c965b6db64b6db6d924b6db6c965b6db64b6db6d924b6db6c965b6db24b6db6d924b6db6c965b6db24b0400080006000c000200100004000800;
   0xb6db6db65b6db6db6db6db6cb6db6db65b6db6db6db6db6c36db6db65b6db6da6db6db6c36db6db65b6db6db6db6db6c02000c00000016000400190002000c00;
   0x124924924924924824924924124924924924924824924924124924924924924824924924124924924924924824924924000004800000020000000b0000000480;
   0x24924924124924900924924824924924124924900924924824924924124924900924924824924924124924900924924800000100000000800000020000000100].
Definition emoji_rows_17 : list N :=
  [0x80000000000000010000000080000000000000010000000000012400092000000000000000000000000000000000000080000002000;
   0x480000038400000000180000002c0000001000000018000000240000001000009249001240049200001000000008000000240000003c0000007c0000013c00;
   0x496400016cb6000000034000000580000002c00000034000000180000002c00492492482db00b6c00002400000012000002480000007c000000fe000003fe00;
   0x124960001f2ff0000002480000012c000005b0000002480000012400000590002492492416d804900000100000004800000124000000fe0000007a00000bfc00;
   0x20003e3ff8000002412000092080000490c00002412000092080000480c0209249040248049000001000000040000000200000007c0000007c00000f7c00;
   0x24925800365b6c00182d82d820164360101b25b0182d82d820164360101b25b04124924905b65b6080002400000012000000480080006c000000b60000007800;
   0x12492400797ffe0020164b20300b0f90502c96c820164b60300b0f90502c96c82092490402db2480400010000000080080002400400030000000580080002c00;
   0x40071ffffc060000f2430090f9060049e4860000f2430090f906004864820924904024924804000900000004800800024004000b0000000580080002400;
   0x64924900b2db6d80402496d860125b6ca0092db6402496d860124b6ca00925b64124920801b6db00a0036c004005b6006002d800a0036c004005b6006002db00;
   0x324924804b27ffc040024b6cc0012db6400496d840024b6cc0012db6400496d82092490400db24004007fe006007ff00b001fc004007fe006007ff00b00bfd80;
   0x100000800f8fffe06492492cc2492c9e412492c86492492cc2492c9e412492c820924904004924004804ff80201eff009000fc00482cff80201eff009049fd80;
   0x2c92496016cb6db05b6fb6cb6db6db0436db6d865b6fb6cb6db6db0436db6d86492492080036d800b0496d80596cb6c06c90d900b2d96d80596cb6c06db0d960;
   0x124924b05f24fff82d97db0016cb6d801b2796002d97db0016cb6d801b27960020924904001924005800f0406c00f960b60078005800f0406c00f960b60078b0;
   0x100000107ff0fff804974900124f24000927920004974900124f24000927920020124804000920004900f0002400f8309201f8004900f0082400f83c9201f810;
   0x2c92492c36d96db41b6db6002d96db0016cb2c001b6db6002d96db0016cb2c000824920800124800b6036c025b05b0086d82d804b6036c065b05b00b6d82d804;
   0x164924907fe4bff82d92d80016c92c001b6596002d92d80016c92c001b65960024924924000924005b07f0006d87f800b6cbf8005b07f0006d87f800b6cbf800;
   0x20000103ffe1ffc0493c80012492400092590000493c80012492400092590000492492000480400492fb000249ff800924f7800492fb000249ff800924f7800;
   0x2592492c36db2db60b6db6000db6da0016db6c000b6db6000db6da0016db6c000924924000924900b6db28005b6c30006db65800b6db28005b6c30006db65800;
   0x12c924961fff97fe05b6db0006cb6c000b6db60005b6db0006cb6c000b6db6000012400000492400492c300064be180092583800492c300064be180092583800;
   0x4800021fff86fc00a24b00024125800160930000a24b0002412580016093000002400000410000402cb000209e380090493000402cb000209e380090493000;
   0x4b6492c16db65b2036016c005b00b4002c02d80036016c005b00b4002c02d80000480000092490092596800492cb0006496580092592800492cb00064965800;
   0x25b24960ffff2f805a00340024004800360024005a0034002400480036002400002400000492480480cb0006412580090093c00480cb0006416580090093c00;
   0x9200203fff0e004300120024000000120024004300120024000000120024000024000000920804800120024005900b0003480482c120024105900b0183480;
   0x96d92c02db6d96032c024004160120065b01a0032c024004360120065b01a00004800000924900b6492cb25b24b2d96c92596cb6592cb25b24b2d96c925964;
   0x496c9601ffffce04020320020304200304024004020320020304200304024000024000004924805b24125b6d92092cb64824965b24325b6d92592cb6482496;
   0x1249201ffff1e0082682002016400010130400082682002016400010130400002400000492000492400092592000492c900124924b0092592500492c96012;
   0x125b6c005b6cb60161b0400082486000c360a00161b0400082486000c360a0002db20000924900b6d924965b6c924b6db24924b6d964965b6cb24b6db24924;
   0x925b4003ffe7800320060004100000021804000320060004100800021804000b6db00004924005b6c920b6db64904b6db24865b6c920b6db64904b6db2486;
   0x490000ff8f80010000000000000000000000010000000000000000000000092490000482400492592492492c924924b2482492592492492c904924b2482;
   0x4b60000365b0002000000010000000180000002000000010000000180000016db6c000124800b6db6db65b6db6db6db6db6cb6db6db65b6db6db6db6db6c;
   0x25800000b2c000100000001800000030000000100000001800000030000001b6db00000920005b6db6d82db6db6c36db6db65b6db6d82db6db6c36db6db6;
   0x10000000000000000000000010000000000000000000000092490000000000092492480492492012492490092492480492492012492490;
   0x0;
   0x0;
   0x4800000064000000b0000000480000002000000090000000400000002000000010000000000000000000000000000000000000000000000000000;
   0x124800001b6400000db0000016d800000b6000000db0000016c800000b6000000d90000016c800000920000004900000124800000920000004900000124000;
   0x92400000db6400016db20001b6c90000db2400016d920000b6c80000492000012490000092400000492000012480000092400000490000012480000092400;
   0x2db6d80016db60001b6db0002492480012492000092490000492480012492000092490000000000000000000000000000000000000000000000000;
   0x124924005b6db4002db6d80036db6c005b6db4002db6d80036db6c001b2590002cb2d80036492c000924900024924800124924000924900024924800124924;
   0x480000002c02480036410c005a2096002c00080036410c005a2096002400080012010400480090002400080012000400480000002400080012000400480000;
   0x2c000800360004005a0006002400000012000400480002002400000012000400480002000000000000000000000000000000000000000000000000;
   0x920004005a0006006c000300b60004005a0002006c000200b6000400580002006c000000b60004004800020024000000920004004800020024000000920004;
   0x480000006c000000b60000005a0000006c000000b6000000580000002400000092000000480000002400000092000000480000002400000012000000480000;
   0x480006c020000b6010000580480002402000092010000480480002402000092010000480480000002000000010000000480000002000000010000000480;
   0x920b6000d80d80016c16c000b60b6000d80d80016c16c000b60b6000580d80016c16c000b60b6000480d80002416c000920b6000480d80002416c000920b60;
   0x482db0016c16c000b61b6000d82db0016c16c000b61b6000d82db0012416c000901b6000482db0012412c00090096000482db0002412c00090096000482db0;
   0x20f0016c3ec001b41f2000d83df0012412c000900920004824f00124124000900920004824f00000104000000920000020f00000104000000120000020f0;
   0x90496006d86db00b6c36d005b45b6006d82db00b6c36d001b05b6002d82db0096c36d000b05b6002482cb00924125000904960024824b00924125000904960;
   0x124824b00b6c36d02db45b6016d86db00b6c36d02db05b6012d82db00924125004904920124824b00924125004904920124824b00924125004904920124824b0;
   0x320800b0492437c02db65be03edc6ff04924124024904920324825b04924124024904920324824b04924024000000120320800b0492400400000012030080030;
   0x6db64920b6d86db05b6cb6c06db65b60b6d86db05b6cb6c06db65b60b6d82db05b6cb6c06db65b60b6d824b0492416c06db64920b6d824b0492412406db64920;
   0xb6da24b05b6cb6c06db65960b6db6da05b6cb6c06db65960b6da6ca05b6c924024924920b6da24b05b6c124024924920b6da24a05b6c124024924920b6da24b0;
   0xfff82480492492406db24920fff924804924924024924920fff924804924924024924920fff924804924124000124920fff824804924124000124920fff82480;
   0x6db6db64b6db6d925b6db6c96db6db64b6db6d925b6db6c96db6db64b6db6d925b6db6c96db6db64b6db6d925b6db6c96db6db64b6db6d925b6db6c96db6db64;
   0x92492492492492492492492492492492492492492492492492492492492492492492492492492492492492492492492492492492492492492492492492492492;
   0x12492492492492482492492412492492492492482492492412492492492492482492492412492492492492482492492412492492492492482492492412492492;
   0x6db6db6cb6db6db65b6db6db6db6db6cb6db6db65b6db6db6db6db6cb6db6db65b6db6db6db6db6cb6db6db65b6db6db6db6db6cb6db6db65b6db6db6db6db6c;
   0x92492492492492492492492492492492492492492492492492492492492492492492492492492492492492492492492492492492492492492492492492492492;
   0x12492492492492482492492412492492492492482492492412492492492492482492492412492492492492482492492412492492492492482492492412492492;
   0x6db6db6cb6db6db65b6db6db6db6db6cb6db6db65b6db6db6db6db6cb6db6db65b6db6db6db6db6cb6db6db65b6db6db6db6db6cb6db6db65b6db6db6db6db6c;
   0x92492492492492492492492492492492492492492492492492492492492492492492492492492492492492492492492492492492492492492492492492492492;
   0x12492492492492482492492412492492492492482492492412492492492492482492492412492492492492482492492412492492492492482492492412492492;
   0x6db6db6cb6db6db65b6db6db6db6db6cb6db6db65b6db6db6db6db6cb6db6db65b6db6db6db6db6cb6db6db65b6db6db6db6db6cb6db6db65b6db6db6db6db6c;
   0x12492492492492482492492412492492492492482492492412492492492492482492492412492492492492482492492412492492492492482492492412492492].
Definition emoji_rows_18 : list N :=
  [0x10000000000000082000000410000000000000082000000410000000000000082000000410000000000000082000000410000000000000080000000000000000;
   0x6800000c300000165800001a6800000c300000165800001a6800000c300000165800001a6800000c300000165800001a6800000c300000160000000000000000;
   0x3200009e7900005e7800000c3000009e7900005e7800000c3000001e7800001e7800000c3000001e7800001e7800000c3000001e7800001e0002000000010000;
   0x324ba49e7b2592de7c92492c3249249e7925925e7c92492c3249249e7924925e7c12482c3048241e7824121e7c12482c304b241e7825921e0000000000000000;
   0x6d87c16c320be0965b05b0da6d86c16c320b60965905b0da6986c10c320b60965904805a6882410c320120965905b05a6886c10c320b60960004924000124900;
   0x320fe09e790ff0de7986d10c320b609e790db0de7886c10c320b609e790db05e7802400c3001209e7904901e7807f00c300fe09e790ff01e0012492000092490;
   0x108ff180010ff088208ff104100fe080010ff00820865104100fe080010fb008200000041000000000000008200f7004100ff000000fb0080000000000000000;
   0x186d10000df7180010db2000186d10000db6180010db2000086d10000cb6080010492000082410000492080010c920000865100005b20800024000800120104;
   0xcb6180014db2000086d10000cb6180000db20000824100004b6000000c92000082410000412000000492000082410000492000000c90000012000400480002;
   0x43e400006ff2000082410000412400002c92000002400000412400002c92000002400000010000000480000000000000010000000890000000000000000000;
   0xb6cb00005b7c000065b60000b6cb00005b6c000025960000b2c900005b6c00002492000012c800004924000024920000124800004924000024000000920000;
   0x5b6c00002db6000032c800005b6c00002db6000012c80000592c00002db2000012480000092400002c92000012480000092400002cb0000090010000480480;
   0x9a400003ffc000012480000092400003cbc000012480000092400003cbc000010080000082400003c9c000010080000082400003c3c0000000b6000000480;
   0x16d800001b6c00002db0000016d800001b6c00002db0000016d800001b6c00002cb00000165800001b6c00002cb00000165800001b6c00012416c000921b60;
   0x1b6800000db0000016d800001b6800000db0000016d800001b6800000db00000165800001b6800000db00000165800001b6800000db00000900960004824b0;
   0x92000000ff0000002400000092000000ff0000002400000092000000ff0000002400000092000000ff0000002400000092000000ff0000000082000000490;
   0x16d800000b6000000db0000016d800000b6000000db0000016d800000b6000000db0000016d800000b6000000db0000016d800000b6000092c125024904920;
   0xb60000005b0000006c000000b60000005b0000006c000000b60000005b0000006c000000b60000005b0000006c000000b60000005b0002cb04920124824b0;
   0x920000007f00000024000000920000007f00000024000000920000007f00000024000000920000007f00000024000000920000007f0002490012000000490;
   0x6c000000b60000005b0000006c000000b60000005b0000006c000000b60000005b0000006c000000b60000005b0000006c000000b60005b6c924024924b20;
   0xb60000005b0000006c000000b60000005b0000006c000000b60000005b0000006c000000b60000005b0000006c000000b60000005b0006db2492012492480;
   0xb60000007b0000006c000000b60000007b0000006c000000b60000007b0000006c000000b60000007b0000006c000000b60000007b0002492492412492492;
   0x6d000000b6000000db0000006d000000b6000000db0000006d000000b6000000db0000006d000000b6000000db0000006d000000b60005b6db6db6db6db6c;
   0xb6000000cb00000065000000b6000000cb00000065000000b6000000cb00000065000000b6000000cb00000065000000b6000000cb0002492492492492492;
   0xa6000000c300000064000000a6000000c300000064000000a6000000c300000064000000a6000000c300000064000000a6000000c30002492492412492492;
   0x165800000a2000000c300000165800000a2000000c300000165800000a2000000c300000165800000a2000000c300000165800000a20005b6db6db6db6db6c;
   0x82000000c30000006500000082000000c30000002400000082000000410000002400000082000000410000002400000082000000410002492492492492492;
   0x82000000430000002400000082000000410000000000000082000000410000000000000000000000000000000000000000000000000002492492412492492;
   0x65000000820000004300000065000000820000004300000064000000820000004100000024000000820000004100000024000000820005b6db6db6db6db6c;
   0x82000000430000006400000082000000430000002400000082000000430000002000000082000000410000002400000082000000410002492492492492492;
   0x82000000430000002400000082000000430000002400000082000000430000002400000082000000430000002400000082000000430002492492412492492;
   0x24000000820000004100000024000000820000004100000024000000820000004100000024000000820000004100000024000000820004924924924924924;
   0x2000000000000000000000002000000000000000000000002000000000000000000000002000010000012480000082000000410000012;
   0x9000000040200001200000009000000040000001200000009000000040000001200000009000000040000001200003000001e7800001c3800000c3000001e;
   0x360b00005b0c00002d960000360b00005b0400002d960000360900005b0400002d920000360900005b0400002d82006800000c300000965900001a6880010c;
   0x492c0000241600003608000049240000241200003608000049240000241000003608000049240000241000003608003249249e7924925e7c92492c324b249e;
   0x49240000241200001258000049240000241000001248000048200000241000001248000049200000241000001240003001001e7804801c3802400c3207e09e;
   0x36d800005b6c00006db6000036d800005b6c00006db6000036c800005b6400006d92000036c80000596400006d92006882410c320920965904905a6987f10c;
   0x1b6c00002cb60000365800000b24000024920000364800000b24000024900000164800001b24000024900000364800100920924904900820824104108ff192;
   0x196400000c900000f24800001924000004900000f24800000920000004800000124000001920000004800000f2400000082000000480000002000000cff180;
   0x36d800005b6c00016db0000036d800005b6c00016db0000032d80000596400012db0000032c800005964000165b00000824100004b6080000492000096d300;
   0x4b6000002490000096d800004b6000002490000096d800004b6000002490000096d800004b6000002490000096d800004924000024820000124100004b6400;
   0x2092000010490000096c00002092000010490000096c00002092000010490000096c00002092000010490000096c000000100000000800000100800006be400;
   0x416c000020b6000030db0000416c000020b6000030db0000416c000020b6000030db0000416c000020b6000030db0000012d80000592c00002d92000032d800;
   0x20b6000030490000406c000020b6000030490000406c000020b6000030490000406c000020b6000030490000406c00000192c00002cb0000036580000192c00;
   0x2012000030490000402c00002012000030490000402c00002012000030490000402c00002012000030490000402c0000009200000241000001e780000092000;
   0x406c000020b60000105b0000406c000020360000105b0000406c000020b60000105b0000406c000020b60000105b0000016d800001b6c00000db0000016d800;
   0x36000000490000002c00000036000000490000002c00000036000000490000002c00000036000000490000002c000000b6000000db0000006d800000b6000;
   0x12000000490000002c00000012000000490000002c00000012000000490000002c00000012000000490000002c00000092000000490000007e00000092000;
   0x2c000000360000005b0000002c000000360000005b0000002c000000360000005b0000002c000000360000005b0000006c000000b60000005b0000006c000;
   0x120000005b0000006d000000120000005b0000006d000000120000005b0000006d000000120000005b0000006d000000b60000005b0000006c000000b6000;
   0x12000000090000007f80000012000000090000007f80000012000000090000007f80000012000000090000007f80000012000000590000007c00000012000;
   0x2c800000368000005b0000002c800000368000005b0000002c800000368000005b0000002c800000368000005b0000006c000000b60000005b0000006c000;
   0x120000005b0000006d800000120000005b0000006d800000120000005b0000006d800000120000005b0000006d800000b60000005b0000006c000000b6000;
   0x120000004900000024000000120000004900000024000000120000004900000024000000120000004900000024000000b60000005b0000006e000000b6000;
   0x2580000032c000005b0000002480000032c00000530000002480000032c00000410000002480000032c000004100000065000000b6000000cb00000065000;
   0x320000005100000065800000120000005100000020800000120000005900000020000000120000005900000020000000b6000000c300000065800000b6000;
   0x12000000410000006000000002000000410000002000000000000000410000002000000000000000410000002000000082000000c30000006500000082000;
   0x65800000b2c00000c300000065800000b2c000004300000024000000b2c000004100000024000000b2c000004100000024000000820000004100000065800;
   0x82000000c10000014500000082000000c10000010400000082000000c10000000000000082000000c10000000000000082000000410000000000000082000;
   0x820000004100000004000000820000004100000000000000000000004100000000000000000000004100000000000000000000000000000000000000c2000;
   0x104800000820000024100000104800000820000024100000104800000820000024100000104800000820000024100000024000000820000004300000064000;
   0x82400000410000010480000082400000410000010480000082400000410000010480000082400000410000010480000082000000430000006500000082000;
   0x2000000400000000000000002000].
Definition emoji_rows_19 : list N :=
  [0x24000000000000000000000000000000100000004000000020000000100000004000000020000;
   0x4100000000000000000000000024000000000000000000000920000000000800000000000000000004020000120100000b00000004020000120100000b0000;
   0x592000012000000000000000007f800000000000000000004024000000001800000000000000000024020000120000000b00000024060000120800000b0c00;
   0x4b6580002c00480000080002402db60800000004000000000b24900000000360000000000000000005b2400002c120000361800005b2c00002c160000361800;
   0x2d92c000360024000020000120b6db0400000002000000002492480000000fc00000000000000000024300000124800005b24000025b60000125800005b2c00;
   0x10fe0c000360000000020000000ffff8400000002000000000010080000000f800000000000000000024900000124000004920000027be0000125800004b3c00;
   0x2cb64b0002d82490000480002416db6cb0000000480000000492c920000001b00000000000000000005b2400002d920000364800005b6c00002db60000b6d800;
   0x32db2500036c124800020000121b6db6400000002400000012492490000012f00000000000000000002c90000016480000492400002db6000016c80000fb6c00;
   0x30ff078003680000001e1800007ffffe480000000400000012402080000092c00000000000000000002490000012400000492000002490000016480000cb6c00;
   0x64b6cb0006d80490002db40000b6db6c30000000090000002cb2592400016d80000000000000000000cb6000016db0000096d80000cb6c00016db0000096d800;
   0xb2db20000b6c0000003ed800005b6db6080000000480000012492490000096000000000000000080010db00001924000020b6000010db00001924000020b6000;
   0xf07f00000b6c000000f3fc00007ffffe0800000004900000104804100004920000000000000000000204800004124000020b60000204800004124000020b6000;
   0x64b6000016d800000165b60000b6db6d064000000160000024964924000b6d800000000000000820060b6000030db0000416c000060b6000030db0000416c000;
   0xb00800001b6c000001f2db00005b6db60120000000b00000124924920004b20000124000000004000305b00004024000020b60000305b00004024000020b6000;
   0x800000964000001f2dd00007ffffe012400000092000000002480002492000012400000002090000490000002400002036000000490000002400002036000;
   0x16000016db2400036db6c000b6db6c02db6d96002c00002592d924005b6c805964b0006c005b60000360000005b0000002c000000360000005b0000002c000;
   0x800001b64920007f6f9e0005b6db6012fffc80036000012492492002492002092480016db64800005b00000024800000360000005b0000002480000036000;
   0x800005b249200079ffcf0000ffffc002fffc800124000020800020124900024924800127fe480000090000002400000036000000090000002400000036000;
   0x60000b6db6c800b2db6d80036db6c005b6db6000d80082596492c02db64005b6db64005b6db00000160000005b0000006d800000160000005b0000006d800;
   0x20000496492000796fb78000b6db0002fffc80006c02c124924920124900065b6c920004be400000490000002480000036000000490000002480000036000;
   0x3000001e492000f93ff380009fff00005ffc800824824120800900924800064924920064924900000900000024800000ff0000000900000024800000ff000;
   0xb6d80002db65801b6db6d80016db60000025900b61b01825964b2416db20005b65b6c82d96d96c000320000005b0000006d800000320000005b0000006d800;
   0x24b2400016492402fbedb7c00496d80000000000db0d82c124924900925800064b6592412492496000490000002480000012000000490000002480000036000;
   0x2492480012492003ffffbec00403f80012400000ff8492412092000492780002496092400692406000010000002480000000000000410000002480000032000;
   0x2db6db6c16db65905b6db6d80490590006db00001b6c36d825964924b6db60005b65b6d864b6cb04000120000005b00000024800000320000005b00000065800;
   0x124924960b2492487fb6db6c024000000b6d80000db61b6c02492490492fa0002db25b64f64b2c060004100000060800000020000004300000060800000b2000;
   0x92492492492483087ffffffc1200000007ff80000ffc092400080080493ff0003fd24ff4c24324020000000000020800000000000004300000020800000c2000;
   0x6db6db6cb6db25965b6db6da2580000006db00001b6c06d804964b2016db60005b6db6db60b24b0400082000000c30000010400000082000000c300000165800;
   0x36db6db6492496496db6db6c1200000003ff80000db0016000492480092fb0002db6db6c30c00796000010000010480000082000000430000010480000082000;
   0x12492490492492486492492612000000016c000007f0000000412000090fe0002f924be432c0079e000000000000480000000000000010000000480000002000;
   0x5b6db2036db6db65b6db6db0c000000000000000360000000124800024b60000b0002c02d80016c000824000004120000124800000824000004120000124800;
   0x92000092492482492492400000000000000000080000000010000000480000000000002000090000000000000000000000000000000000000000000000000;
   0x2000000000000000000000000000000000000000000000000000000;
   0x2c00000092000000580000002c00000000000000000000000000000000000492492482d800020000000000004800000000000124924920000000000000b00;
   0xb60000005900000024000000b6000000000000000000000010000000000002492492416c10090000000400002400000010000492492480000000000002d80;
   0x920000005900000024000001b6c00000000000006000000010000000400002492480402cb0090000002400002400000018000492492480000000000002080;
   0xb25900000b60000004900000b6db0000012000002d80000006c00000582c005924924905b6c12400000490012db2000006c00092496c920b00020000020160;
   0xc925800005b0000002400000492400000480000032c020000b6000082c30086c92400406db24900000024800924920000f60004925b6490d800f0000080020;
   0x2400480000180000002400000092000000480000010c82000082080180400587c924000124900900000024000924900000d30804925b6481cc00f80004007b0;
   0x5924960000920000025b0000096d900000920000164b6580032594034080430db6c92492cb6c12400480490092492480016d940924b6c92596c16c025b24b60;
   0x164924b00004900000124800004924000904924801925e2400592d80080400087fb64924304b4090002c024024924924004f2d804925b64864b27960364965b0;
   0x124924920024920000124800000920000904924801801e2400580580000400007ff64924104120800024024004924920004d27804924b64824b26930000927f0;
   0x2492492412492490092492480096d900124924920b64965801964b4004092400db6d924920b2c00000d800800b6db6d801b6db4096cb6c925b65b2582db6db68;
   0x124924924924924824924924004b6400492492480cb24b2402c92580002592087df6cb24004160000124800005f3cb2003ff25805965b65b2592492c00000ca0;
   0x4824924824924924000100000004900004100324020b00800165a6407ffecb24004020000124900001f3cf0003ff24c04964b65f2580492600000fe0;
   0x24924924925b6c92492492480092c900924b6492592c92db0c92c96012cb6d92db6db6c900b0400000d96000096596c00db6db6096cb6cb65b64b64b00001b60;
   0x124924924924924824924924024924904924924824964964064924b0096596c87dfecb6400406000012c900005f3cb2006f924b05b6db65f2cb24b6400000cb0;
   0x12492492092492482db6db6c12010090012492480080402400410400196496587dfecb64004020000924800001f3cf0002f92c8049ff965f6c100b2000001830;
   0x2db6db6cb64924b65b6db6da6c92496cb24b64960b24b25b04b24b20964b64b2db6db6c900b0400016d96400096596c005b6db6096db6db6592c96d801801960;
   0x12db6d90492492486db6db6c924924924924924804924924024924805b2db6d87dfedb64004000000924b20005f3cb2002592d805bffb7ff04924b24020025b0;
   0x124b6490002492003ffedbfc124904920124924800804024004004000b2492407dfedb64004000004924920001f3cf00025924804bffb6ff00804320000037b0;
   0x596d960925b6c925b6db6da2cb2cb2cb24b64960924925b0492492092db6d92db6db6d900b0000036db6d80096596c005b6db6096db6cb60964b2d801801960;
   0x124b6490492492486db2db6c92492492492492480492492402492480492492486db6db6c005920000924924005f3cb20024924805befb6ff04924b2412482830;
   0x20be080090000483ffedffc124904920124924800000024000000000800000824925b6c004924000924924001f3cf00024924805bffb7ff0000032016d83830;
   0x596d960b64924b65b6db6da2c92492cb24b64960924925804924920b24b64965b6db6db05b6db0016db6cb0096596c005b6db60b6db6db6092492da2db05b68;
   0x124be490492492486db6db6c92492492492492482492590002492c805925b2586db2db6c024924901924924805f3cb2002592d807bffb7df0492492436d82590;
   0x20fe080082492483cbe7f3c12490492012492482080490000400c001905b2c824924bec124924900924124804f3cb2002f93f807bffb7ff0080400000002c90;
   0x596d960b65b6cb6596cb65a2cb2cb2c924b64925b24b2c004b25b20b2cb65965b6db6db6db6db6c12d924900b6db6d805b6db60b6db6db60964b0000000582c;
   0x124be490492492487cb2592c92492492492492482492590002492c80596db2d86c92db6cb24924b6092c92480492492002493d807bfdb6ff0492c80000006010;
   0x20fe080090000483cb81d2c12010092012492482000490000010400192db2c824924924124924920124000000000000024924807bffb7ff0000400000006018;
   0x25924964924b6492596cb65a2492c924924b64925b6db6db2db6db6c12cb65905b6db6db2db6db6c925924924924924804924b20b6db6db60924b2000000400c;
   0x12492490492db2486cb25b2c924b64925b6496486db6db6c16db6db0016db2406d92496c16db6db04924924824924924124924907bffb7ff2db6db0000006014;
   0x490003ff81ffc120100920324924824924924124924900004900024924924024924800000000000000000000000007bffb7fc249248000001fffe;
   0x24800124124924921b6c96d82492492412492492000000000000000000000000092492480012480012492490000000000000000012db25b0000000000000db6c].
Definition emoji_rows_20 : list N :=
  [0x92490000000000000092480002492000012490000000000000000012492490;
   0x4900001ffff8000000000000092480012492000037fb0092402400492000012492492;
   0x4900020000000000000000000000000001b6c00036db6c004020100000124920004924000065b2836db05b05b6d80006db6db6c;
   0x2480010000000000000000000000000000db00001ffff80020100805b6092480012592000032c907fff86d86db6c000b6db6db6;
   0x10000000000000000010000010002db00007ffffe0020100805b7092480000580000030c905b6d82482492400092492492;
   0x25b6db64124b64905b6db6d804924920124924925b6db6d82800000c005b6c000b6db6c00582c160b2596db60005b24000064968924905b0492480006db6db6c;
   0x12db6d900927f2487ffedffc12492490492492487ffffffc10000010000490000db6db60020100805b60924800125920000324b0492482c024920000b6db6db6;
   0xffff800007c0007ff01ffe00000010492492487ffffffe10000010000080000ffffff0000000007fe092480002790000020430092412c82482092092492492;
   0x24b6db24924b6492db6496db0492492092492492db6db6db2c00002c02cb65801b6db6d80582c16016c124920005b24000064b28b2cb6db65965b6d86db6db6c;
   0xb25b6c964927f2487ff24bfe12492490492492496db6db6c340000360125b2c02db6db6c06c341a0090092480012492000032c904924bfff24925b6c12492492;
   0xf00fe0160007c0007fe647fe00000010492492486db6db6c34000036012cb2c03ffffffc00000000090092480000010000033c10092436db2482492400000000;
   0x6c96c92c924b6492db6cb6db04924920924924925b6db6db2492492402d92d805b6db6d80582c16092496db6492492480002db6892492492492492492cb2d964;
   0xb64924b64927e2487ff24bfe12492490492492492492492412db6d92036496c02db6db6c07c3e1e0492492486db2492c000124b0492492592492492416596cb2;
   0xfe0100fe4927f2497ff00ffe00000010492492482492492412db6d900b6db6c03ffffffc0241008049240000248008040001002009241658248209241e7964b0;
   0x6d924b6cb6db6db6db6c96db0492492092492492492492492db6db6c16db6db05b6db6da04824120b6d92492492492492db6db6cb2cb24b2596596592cb24964;
   0xb6c925b67fffffff7cf25f7e12492490492492482492492412db6d92012492406db6db6c06c361b0492492482492492436fb6db64924965924924b24165965b2;
   0xffc007fe7fffffff7cf25f3e00000010000000002492492412492490000000003ffffffc3ffffffc492492482482092412492490000016f80000092412586190;
   0x6d924b6cb6db6db6d92db65b04924920924924925b6db6db2496d924024924805b6db6da6db6db6cb6d924925965b2c92cb24924924925b2492496d92d964b6c;
   0xb64924b65b6ff6db7d92c93e12492490492492486db6db6c12cb65920b6db6c02db6db6c36db6db6492492482cb2492c16c924904924965924924b2412d965b2;
   0xfe0100be0007c0007ff00bfe00000010492492486db6db6c124924100b6db6d83ffffffc3ffffffe492492482482090412410410092416582482092412c86698;
   0x6c96c92c924b6492db6c96db04124920924924925b6db6db2c92492c36db6db65b6db6d86db6db6cb6d96db6492492492cb2cb2cb2cb24b2596596592d964b2c;
   0xb24b64964927f2487d92cb7e00002410492492496db6db6c12400492092492402db6db6c3eff7fbe492492482c92492412492490492492492492492412492492;
   0x801ffc020007c0007c97c93e00000010492492487ffffffe12400410000000003ffffffc3e7d3ebe492492482482092412492490000012480000092400000000;
   0x24b6db24924b6492d96db65b0000002092492492db6db6db2492c924024924901b6db6d86cb65b2c924924925965b2c96db6db6cb2cb2db65965965924924924;
   0x12db6d924927f2487cffff7e00000010492492487ffffffe12490492036db6c00db6db683eff7fbe49249248249249243ffb20b64924965924924924b6db6db6;
   0x3ffff800007c0007fffff7e00000010492492487ffffffe12010010092492400ffffff03ffffffe49249248248000043fff24be092412482482092492492492;
   0x25b6db64124b64905b6db6d800000020124924925b6db6d82492c92416db6db00b6db6c06db6db6cb6d96db65964b2492db6db6c92492db6492492496db6db6c;
   0x800004924920000000100000000004924920124904920924924805b6db603e7f7cbe492492482cb2592c16c96d904924924924924924b6db6db6;
   0x100000000000000000120100100924924801ffff803e7d3ebe492492482482592412412490012012480490092492492492;
   0x2000000000000000002496d92436db6db6036db6c06db6db6cb6d96db65964b2c92db2db6c92d92db64b6c96d96db6db6c;
   0x100000000000000000124924924924924801ffff803ffffffe4b6496c82492592412496d904b6496d825b2492436db6db6;
   0x92490012492490012002400000080000002480012002480090000012492490;
   0x24800000000020000024000004000000120000000000000000000;
   0x1ffc00000000080000092000006000000490000000002000000000;
   0xff8000000000800000920000020000124920005b0002000000000;
   0x16db6db00b6db6c80492492002492490092492400096d90032000036002c32480000580002c925801b6d92d800000000;
   0xb6db6d80db6db6012492490092492400492492000cb65805b6490080030402400000c00036492c00fffdbe000000000;
   0x4000000000000000000000000001b6db6d80492492012492490000000000000000000492480092490080010490400000400012492c01fffffe000000000;
   0x590000000000000000000000000016db6db01b6db6d80db6db6012492490092492480196d96002016c800120925b00004b2402db6d901b6db6d824924924;
   0x20000000000000000000000000001b6db6d80db6db60124924900924924804924920020b6880000016400480402400012590092492400fffffe012492492;
   0x20000000000000000000000000001b6db6d80492492012492490000000000000000000092480000002000000402400000090092492481fffffe000080000;
   0x492580000000092000000000036000016db6db01b6db6d80db6db60124924900924924801b6db00020004800900921b00024b2412d92d901b6db6d824965b24;
   0x16db64b00b6db64000000000005b00001b6db6d80db6db6012492490092492480492492000db6d80000002c00480492400092490092492480fffffe010db2d92;
   0x1fffe4f0092492480000000002db04001b6db6d80492492012492490000000000000000001ffff80000000400000402400000090092492481fffffe0007f2db0;
   0x2db6db6c36db6db00000120005b6db0016db6db01b6db6d80db6db60124924900924924801b6db60020020b0010092480012492412c925921b6db6d82cb6db24;
   0x3ffffd9c5b6db6d80000490006db65001b6db6d80db6db6012492490092492480492492002db6de0000010400000c92400492490492492480fffffe0165b2cb2;
   0xffffff9e492492780000090006db64001b6db6d80492492012492490000000000000000002df7de0000000400000492000000000092012481fffffe0075fac30;
   0x6db6db6cb6db6db6012492000db6db6016db6db01b6db6d80db6db60124924900924924805b6db60020100300001b6c00092492416c925b21b6db6d825b6db24;
   0xfffffffe5b6db6d80492490016db65801b6db6d80db6db6012492490092492480492492002fbefe0000080400002090002492490092492480fffffe0b6db6db6;
   0xfffffffe492492480000080016db6d801b6db6d80492492012492490000000000000000003ffffe0000000000002000000000000092412481fffffe092fffff2;
   0x6db6db6cb6db6db6092492000db6db6016db6db01b6db6d80db6db60124924900924924801b6db6002080030000400000492492036c925b61b6db6d86db6db6c;
   0xbfffffb05b6db6da0492490016db6db01b6db6d80db6db6012492490092492480492492002db6d80000400000010000012492480592492580fffffe0b6db6db6;
   0xdfffff80492492480000010016db6df01b6db6d80492492012492490000000000000000000492480010000000010000000000000092492480c17ffe093df6d92;
   0x6db6db0096db6d90092492c00db6db6c16db6db01b6db6d80db6db60124924900924924800b6db0006c00030002000000492490036d92db40804b6d86db6db6c;
   0x9ffffc005b6db6000492492016db6db61b6db6d80db6db60124924900924924804924920005b6d000f20001000800000024924800924924800000020b6db6db6;
   0xdffffc00492492002000010016db6db61b6db6d804924920124924900000000000000000004924001f2000000080000000000000092492400000002092db65b2;
   0x6db6d80096db6c004924924865b6db6c16db6db01b6db6d80db6db6012492490092492480036d80036c000300300000000924800025b6c90000000586db6db6c;
   0x9fc978000b6db6006092492082db6c901b6db6d80db6db60124924900924924804924920001b6c00596000180500000000492400012492400000002036db6db6;
   0xcf0070000900120000000000805b20001b6db6d8049249201249249000000000000000000009200001e000000e00000000000000012492400000002012492490;
   0xd80d80006002c00400000006012000016db6db00b6db6d80db6db6012492490092492480006d80002c000301800000000124000024b64800000005804924920;
   0x60060000b00100060000000800000000b6db6c004924920024924900924924004924920000be000030000183c00000000092000002592000000002000000000;
   0x60060000100100020000000100000000000000000000000000000000000000000000000000ffc00030000087000000000000000000490000000002000000000;
   0x4004000020020005b6d80002db6db6000000000000000000000000000000000000000000016d80002000010c000000000020000000360000000005800000000;
   0x2002000000010000492000002492480000000000000000000000000000000000000000000092000000000002000000000000000000080000000002000000000].
Definition emoji_rows_21 : list N :=
  [0x0;
   0x480090000000000000002000000000000000000016d800000000000000000000000000000024800020000000b00000000000100000000000000000000000000;
   0x16c00d80000000000000090000000000000000000492400000000000000000000000000000016c00090000000f80000000000082000000000000000000000000;
   0x10402490000000000000090000000000000000000493400000000000000000000000000000012400000000003c00000000000400000000000000000000000000;
   0x6030db60000124800000024000000000100001901b6db2000000000000000000000000002c06db0010000000580002000000092c000000000000000000000000;
   0x2412c90000092400000012000000000100003c024925b0000000090000000000000000012096c80400002006000032000000410000000000000000000000000;
   0x820124b0000092400000000000000000300007d824024a0000000090000000000000000002013c80400002006000036000000410000000000000000000000000;
   0x6c30db6c000924800800124800000000b0000db05900820000000120b2000000000000000586db64800004b0c00002c000000960000000000000000000000120;
   0x86402cb000049240200009640000000040001ed824000100000001905b000000000000000281249640000240600003e000000490000000000000000000000480;
   0x8241249000040000000000200000000040001e4824000000000000104900000000000000020924124000024060000ff800000490000000000000000000000fe0;
   0x6596db6c024924904120124904924924b6d92d96580000000012016c36000000000000000586db6c000004b0400006d80000092000000000000000000d925b60;
   0x805b6d960924924824924924024924927b6db6c324000000004900921b00000000000000028125b04024024860b20ffc0000048000000040000008001ff92fb0;
   0x804924920004800800000000000020001924920024000800024900920800100004000000020124900024820031ffdffc0000048000001040000058001ff83ff0;
   0x60b6db6c124924b2492492482492492416db6d80580016400492496c30016d80080000000d82d820124964901b6db6d80016db60000165900105b2486db65b60;
   0x80db6d900924925824924900124924921b6db60024000120024920921801b6c00c00080012032000092492480fffffec004924900924925805b6d920fffd2ff4;
   0x804924900000000800000000000124800924920024000020124920900804924824000b0012012000012492000fffffa0024924b00924925804b6d934fffc0ffe;
   0x61b64b6012492492092492082492496c16db6c005800005824924960300b6db0580036db2c02d820124924800b6db68005b6db6c165924924b6db2586db64b6d;
   0x82db00004924924804924800124924b20b6db6002402402412492490182db6d82c005b6c120124b0092492000fffff00024924924924924b24b6d924fff925fe;
   0x824900000000000000000000000124b8012492002402402412492490092492f82400492412002490092490000ffffe00024924924924900b2496c924fff921fe;
   0x65b6c00012492490092492002492596c02c96d80582db0582492496036db6db65b2db6c92c00db60124924001b6db6000db6db6c92496c124b25924b6db6cb6c;
   0x82db6000492492000492480012492490036016c024124824124924901b6db6d96db6db6c12002590092490000ffefc0012492492492492000492c80497fbe400;
   0x82492000000000000000000000012490016002402412482412492490092492482492490012002580092010000ff6fc0012492490492490000492480007c3e000;
   0x65b65000124924800924900024924960025801a0582db65b24924b6816db6db65b6db6002d80db60024924000b6db6002db6db2492492400492492000496d800;
   0x82db2000092492000400480012492490032c024024124824124924900b6db6c86db6d80012812580092012000fc27c00124924004900900004924800164be000;
   0x2492000000000000000000000000480010002002410082412492490092492482492480012432480010010000f807c001249240049001000048008000e012000;
   0x25b6180012492400090010000492490002c16c20596c365b24925b6c16db6db05b6db0002db6db0002c024000b4036002db6db0012000400490012000d924800;
   0x12db2c000924900004004000124924000161b04024900924124924900b6db6402db6d80012492400090012000f807e0012492400080010002480080002492000;
   0x12482400000000000000000000000400002100402490092402492490012492402492400002492400010012000f803e0002492400080000002400080000000000;
   0x5b6580002492400000010000db25800001000005b6c16d80492db6002db6d801b6db00005b6d80002c024000b40360005b6ca00120004000900120004004000;
   0x2d86c00010010000400000006e16c00002000002490092412492490012492000d86c00002492000082012000c801b0002490400080012000480080002002000;
   0x4920000000000000000000024160000030000004800120124924800024900004824000004920000020120006e01b0002490400090002000480090000000000;
   0x924000000020000000000000804000001800000100024024924900000920000804000000120000020004000a00100000924000020004800100120000000000;
   0x2000000000000000002000000000000000002000000000000000000002400000000000000000000000000000000000000000000000000000000080;
   0x24000000000000000e6000002002000000006000000000000000000016c80000000000000000000000000000000000080000000003c000000001e0;
   0x90000000000000006d00000580c00000080c00000016400012490006db60000000000320b60160000000000000000100000000001800000001b60;
   0x4800000000000000fe00000381e000000cb80000005b60000924800b6db00000024805b2db0580000000000000480080002000002c00000000db4;
   0x4800000000000001ffc00003c18000000cf8000000d900000100001b6db00000024907b24925c0000000000000c8008000e400003c00000000c1c;
   0x80000092400000000000036d800000b6000000096c300005b2c00492c90036db6c00096db6c36db6db60000000024001b6004000d80000180000000192c;
   0x406c800004920000000000001ffc00000ff0000010dfe400006db60124924805b6db60024924925f6db6f80000000012003d9200001ecb0002c00000000490;
   0x4124800024920000000000007ffc00000ff0000018dffc00006db40004020005b6db60024924923d24927c0000000012003e9603001e4e00000000000000d0;
   0xb6db60005924800000b60020b6db04001b6800000c96d80000db6c024924900b6db6c00db6db6c36db6db60000000060001b2402c02db6002490000400092c;
   0x5b6db0402492000000da0030dbed84000ff0000006dff800016db00124924005b6db60124924921b6db6d80000000080003c9000603e480012480010002490;
   0xb24b0012492000002480013ffff88000ff0000003fff800016c000004024005b6db6012492492192492480012480000002c9000241e480000000000000010;
   0xb6db6c12cb64804005b6002db6db6c12492490016db6d80002da00024b24800b6db6c02db6db6c16db6db00124920060b65b24000b6d900024920024804920;
   0x10db6db409249240601649001efbfdb00924924801bfff6000036c000924924005b6db60124924f21b6db6d804924900125b24000000b6000092490012412490;
   0x1279e492092493c02412492007fffff0012492000007fc0000036c000900804005b6db60124924f209f49f480492490012492400000197000000000000000010;
   0x2db6db6c125b25905b2db6d805b6db6092cb65920025b6d80002db0016492480036db6c02db6db6c36db6db6092492c00db6d90000036c00012492002492492c;
   0x12db6db6092492482c12496406dbedb04924924800f7fbfc00036c000b24924001b6db40124b24924b6db6c804924b24124924000004b60000b24b0012492490;
   0x1249249209249248249249e407fffff04904904801fffc20000360000b00900001b6db0012492492417ffe400492492412492400000cfe0000724e0000000018;
   0x25b6db6c124924921b6db6f86db6db6c125b6c92036db6000006d80016c96480016db6c06db6db6c36db6db6092492490db6d900001b6d00016496002492492c;
   0x125b2490092492480c92c96496dbefb2097ffe4807ffd300000b68000b64920001befb0012496d924bffffc82492492412492400002592000092490012492480;
   0x492490092492480492c92407fffff001ffff000fff9980000b68000b60100005befb6012492d9241ffffc82492492402492400002792000012480000000000;
   0x36db6c124924920b6db6db05b6db6000db6d801b6d90c00016d80016c92c000b6db6d06db6db2c32db6d96492492490d96d800004b6c00012db20004924900;
   0x96490092492480c92c92407dbefb0002492000fffd800005b60000b64900005b6db609249249259eff7c82492492402492400002f92000092490002492480;
   0x92490002492400492492c07ffffe0002492003fffc800165b60000b60000025b6db641249249249e7f7080492492002402400002792000002400000000000;
   0x16db60104924901b6db6d80db6db60005b6c001b6d90002db6c00016d924005b6db6db6db6db2c32db6d96092492400d80580010db6c000125920004924900;
   0x92480402492400d92d97c16fbfdb0007ffe003fff180036db00000b6490006db6db6c82492492597ffe580492490012c02c00412592000092c90000492400;
   0x2480000492002492496413ffff98003ffc003ffe080036db00000160000025b65b24024924100bffffc80492490012002400412492000003c00000000000;
   0x5b00000924005b2db6d821b6db0c001b6c005b6c00006db6000002c92000036c36c005b6db2c36db6fb4092492002580580082db6c000125920000124000;
   0x90002c12492000fbed00000490003ff0000036db00000124900025b00b64024924101b7ffed80492480012002c00412492000092c90000082000;
   0x800024024920007ffc00000080003ff0000016db0000000000006d80036c02402410092ff2480080080012002400412482000003c00000082000;
   0x900005805b2000016d800000100001b2000000db20000024920005b2002db05b05b2006db6db00120120021804b0012db4d800125920000124800;
   0x2400000006000000082000000180000000000000400000002400002c00002c02402400016db6400080080012c02400092482000002c00000082000;
   0x400000000000000000000000000000000490000000000000000000000000000000000000000000].
Definition emoji_rows_22 : list N :=
  [0x100000000105804000000000000000000800000000000000000000000000020000000000000100000000000000000000000000000000000000000000;
   0x80000080492c92000000000010002402c800000000000000000000000000b00000000000007e0000000000000000000000000000002400000000000;
   0x800000804924920000000000920024004800000000000000000000000000b2000000000000590000000000000010000000000000002400000000000;
   0x2400002c160000b0496db6482092492416d82db00b6d90000080c00000000190000016d00000000000492800000db60000124800000124000024900000000000;
   0x1200009009000048249ff924104924900924124805b6d80002c16000000002d800005b60000000000124b8000016db0000492400000010000012480000000000;
   0x12000090090000402493c92400000000492412480492480002412000000002c800005b20000000000025fc000017ff0000492400000010000012480000000000;
   0x2c92496c12c001904925924824924924b24824960b6db60005b2d160005b01b60000b6c80492c920005b6c00400db6c000924900000124800124920000000000;
   0x124924900920024024924924124924904924124905b6db0002db61b0006d82d804005b2412492490006486006006df6000492480000492000092490000000000;
   0x124924900120024004924920100804104924924804924900024920f00024824004005b0612492490006002006007ffe000492480000492000092490000000000;
   0x2c92592c064004b0092db24824b2592c925b6c920b6db6c005b6db6c02db61801b00b6c86db6db6c00c92580580db6d800b24b00000924800164964000000000;
   0x12492490012002400c97c92012793c92492492480db6db0006db6d90036d82c00400db20964924b2018003c06d96db6402792c800004924000b24f0000000000;
   0x2492490012002400c92493010783c124924924824925d0002492480012480400400db00164924b2038001c03fffffe40249248000049e4000b2490000000000;
   0x496492002580c801b2492d864b6592c32db6d961b6db6c00db6db0006db61800825b6c06db6db6c06c925b05b6db6d80496c92000092c900125b24000000000;
   0x12492490012002400d92596812592c92092492482db6db6016db6d800b6db0c00412d900964924b20f0000e02fb6db6002492480002492480092490000090010;
   0x24924900120820004ba5d20100804120924924024925920124924800924904000125900124924920f0000f00fffffc0024924800024924800924900005b2090;
   0x24924924005b6c80092cb6486492492402db6d905b6db6d82db6db4036db6db0012db6c02db6db6c164924b01b6db6c004924920004924900924924800b6d96c;
   0x12592c900124920024be5d2482492492012c92402d92db6c36db6d805b6db6c00092492012592c901f0000f80dfedb0002492480492492400492492002db68b2;
   0x12792e900024920024ba5d2c02492480013cba4024924924124924804924924000124920127bec901f0000f807ffff0002492480492492000492492002592c92;
   0x24b25b24005b6c00192c96580492492002db6d805b65b6c86db6db0096db6db00125b6c005b6db60364924b45b6db60004924920124924800924924805b6d96c;
   0x12592c90012492003c92493c12492490013cbe402d86c80086db6c004b6db6c000924900024be4801f0000f82db6d80012492490492492000492492006db6c90;
   0x1249249001349e003c00007c12492490013cba0004820000024924004924920000124900024fe4803f0000fc3ffff80010492410092490000492482006496480;
   0x2492492402db6d800925924825924b2400db6d801b0400000d96d80016db6c000121b60005b6db6032c925961b6db0002492492412492000092492480db6db00;
   0x124b6490012496402007c00412c92590002c92000d80000006c06c000b00b00000b04b00024fe4801b0000d805b6d00010492400092490000492492016db6d80;
   0x12092010012492403003c00c124924900024920004800000020024000900900000200000024fe480318001cc01ffc00000492400092480000010080016496580;
   0x492c92006c925a01925925825924b24025b6c800360b0000d80580016006c000160120001b6db0012c92580016d80000012480002492000092492486db6db00;
   0x2492490012492403c00003c124924920b6c96c801b2c00016006c000b00900004800b00004b640001e003800082000000092000012480000492492006db6c00;
   0x2492480012002400e000070124924905b2492c800924000120020000900900004a00b000009200001e003000082000000012000000400000000000002db6c00;
   0xb6590006c925b00925924024924924b64920b6002d80000d805800160068000b6036c00002c00002d92d800104000000024000004100000124924005925800;
   0x492400012412400002c00012492490080080500002c000100060000900900004b04b0000000000016c16400082000000082000002080000092490002402400;
   0x92000012012400002c00002492490080000180000400000000000010080000480090000000000012412000000000000082000002080000000000002402400;
   0x2400002d92d800004900004924920100000100000800004804000020040000860120000000000024924800000000000124800004100000024900005805800;
   0x2002000000000000492400000000000000000000000000000000000400000000000000010000000000000000080000000000000000000002002000;
   0x10000400402402000000000000000000000000000000000000000000000000000000000000000000000000000000000;
   0xc00000030c00000000016c925b00b2db2d80400002000000000010002400000000010000002000000000002c000000064000000000000820000;
   0x1600000079e0000000001b2492d82cb6db2c120000900800000804900920024000804804800800b00b0000036000016c84000000000000c30000;
   0x1200000079e0000000003b00005c24924924120000901800001804900920024004904804904807fa5fe0000924000bff90000000012002db0000;
   0x480012000002d80000032c000000000364924b65b6db6c82c92492c360000b64b6416d80cb00b28b64924b65b6db6d800b6db0036db6c00000016d80db6c000;
   0x240040000003640000019e0000000007924925e25b6db6432492496190002c82db24b6c12410490592492583ff24bfc00db6d807fedbc0000000924164b4000;
   0x12400003198c000000007800000c24924924100000120920020824924924130924c0492492487f9249fc004924807f65bc000000012032490000;
   0x2490092400006db00001901800924900324924965b6db6d82492492412592c945b6492d925b6d96cb64924b65b6db6db01b6db60b6db6c00400002c02db6c000;
   0x100820000000b2c80003800c02492480192492482db6db6c12492492192db6482d92496c12492490592492487f92497e02cb65807b6db6006480010032db2000;
   0x492c800000b0802492490000000080492492000000000196db6082492492410492410492492487f9249fe024924807924920024800100125b2000;
   0x24924924060b6db6000016c005b24b20124924901b6db6d82492492412db6d905b2492590db6db60324924965b6db6db05b6db60b6db6c005b0000c06db6d900;
   0x4000920a2db24800001fe012c92790097cbe400db6db68124924900b6db6d82c92492c02492490092492487f92597c164924b05b6db6002c000000125f2480;
   0x480090083c924000007fe013f92f90007c3e0004924920000000000b0592c02c92492412492490092492483fba5d7c12592c904924b2002000000012492480;
   0x24b2492c16db6c80000036c025b25b6412db6d901b6db6d824b24b24065b6cb0192492582db6db6c164924b25b6db6d82db6db6cb6db6d80180016d86db65b6c;
   0x25805b2596db20000007fe017f92ff209eef7c82dbedf6c12c927900b3d9e5004924920124924904f2492e83cbe5d7c16793cb25b6db64020005b6c12492496;
   0x3f805f849e4904000007fe013f92fd001eef7c024be7f2400e007000b319e5800924900124924924f2492e83cba5d3c12793c904924b2402002492412492496;
   0x25b64b6c32db6cb6030c32c025b25b6412db6d905b6db6d824b24b24165b6cb0096c96486db6db6c96db6db20b6db6d82db6db6cb6db6d805805b6da6db64b6c;
   0x2f805f259ed96de079e000017f92ff209ecb7c82dbedf6c124924900b25965804b25f2092592c92496db6490492492016592cb05b6db6c02c16db6c32496490;
   0x2f800f049a4925e079c000013f92fd001fc1f8024b25924000000000905805800f25f0012492492492492480492492012492490492492402412492412496d80;
   0x24b2496432db6db6032c800025b25b6412d92d925b6db6da04924920124b6490096c96486db6db6c92db6d920b2592d80db6db60b6db6db01b6db6db2db6db60;
   0x4000925b6c96d83190c00012c92790096002482d924b6c024924800925924804b24f2092492492497dbec90497c920164b64b05b6db6c82db6db6c32490480;
   0x4ba492483801c00012492490000490002496c924000fe000080590080090090012400492493cbe480497c92002492490492492482492496432480480;
   0x24924924b6db65901821800004924920125b6c905b6db6d80496d92012cb6592092492482492492412db6d920b2592400db6db60b6cb6db01b6db6db2db60900;
   0x100820005b6c900000b0800002492480080ff0082c97f96c024fe4800967f2d80492c92012492490496db6480492c920064924b05b65b6d80db6db6c12480000;
   0x4924800001f80000004924800007c0000497c920000be0000027c20000924900000000000924924800924900025ffc90490092480492492412480000;
   0x490092036db6000036c000000924900024924900b6db6d80092c900004b64001b6596d80492492012db6d900025920005b6db60b6c02db60b6db6db0db00000;
   0x24004001b6c800007fe000000000000000000400492496000092400002590002db2cb6c02492480092db6480012c800025ffc805b0016de05b6db6c16480000;
   0x924800007fe000000000000000080000092c9000009a000000490002480012400000000012492400003c000024ff4804900025c0492492402480000;
   0x16db60000b6c000000000000004b6400016db6000016c800000b60004b24925800924900024b64800005a00001b6db00b6c005b6036db6d805b60000;
   0xb6db00007be000000000000000590000016d80000092000000480000c12482000012000000490000002c000004924005b0002d80092492402490000;
   0x12490000000000000000000000080000002400000000000000000000000000000000000000000000003c00000092400490000480012492002490000;
   0x4920000000000000000000000100000000800000000000000000000000800000000000000000000000800000124800920000900024924000924000].
Definition emoji_rows_23 : list N :=
  [0x10000000080000000000000000000000000000000000000000000000000000000000000000000000000000000000000000000;
   0x100000000800000000000000000000000000000000000000b6000000490000002400000000000000000000000000000000000;
   0x480000002c00000036000000580000002400000012000002492000036db00005b6c00002db2000012480000492400000000000016c800;
   0x2400000036000000580000002400000012000000480000092490000db6d80006db6000096c900004924000024920000000000005ffc00;
   0xb6000000480000002400000000000000000000012480000ffff80012db60000924900004924000024900000000000007ffe00;
   0x82000000490000006d000000b60000005b00000024000000920000164964001b6db6002db6d80016db6c000b24b00024924800000000001b6db00;
   0x80000002000cb00000024000000b6000000db0000002400000092000000490000092490002db6f80036db6c004924b2002492480012492400002400003fb6f80;
   0xf200001e0024900000000000000b6000000490000002400000000000000000000080010003db6f8001249240049249200240048001000200001e580007f80ff0;
   0x6db6db6c005b6c00000490000016d800001b6800000db00000124800000920000124924005b6db6006db6da00b6db6c00592492002492580016496000db24b68;
   0x3edb6dbe006db60000124800001b6800000db0000012480000092000000490000492492007db6da00b6db6c00592492002492480012492400196c9001fc105f8;
   0x3e5b6cfc0124920000000000001b6800000490000012480000000000000000000080090007db7fe0032492c00492492002000480010000000416d8203fc1a1fc;
   0x2db6db6c02db6d80002490000036d800001b6c00002db0000012480000092400092496c005b6db6006db6da00b6db6c005925b2002492580092db6586d96c96c;
   0x16db6db00b6492d800124800001b6c00002db0000012480000092400000490000492490007db6d80036db6c005925b2002492480012492400037c808bf0fe0fe;
   0x64b64a00900004800000000001b6c00002490000012480000000000000000000080410007dbff800124b2c0049249000200208001008200203f8804ff0ff0fe;
   0x1b6db40b24b6496002490000036d800005b6c00002db00000124800000924000124924005b6db6006db6d80036db6c00592c90002492480496d96486d96d96d;
   0x2db6d805b7ffedb00124800005b6c00002db6000012480000092400002490000092490002db6d80036db6c00092c900024924800124924060bfdb04ff0fe0fe;
   0x24b64805ffffff800000000005b6c00002490000012480000000000000000000080400003fbed800164924000924900004100000020800000bffb007f0fe0fe;
   0x1b6db0036db6db6002492000036da00005b6c00002db60000124800004924000164924001b6db0002db6d80016db6c000b2c90000492480096db6486d96c96c;
   0x2db6d801b7ffed800124800005b6c00002db6000012480000492400002490000092490000fb6d80016db68000b24900004924800024920000b7fb003fc101fc;
   0x24b6480092ff64000000000005b6c00002492000012480000000000000000000010480000fbfd800024b2000092490000002400002010000037f8001fc007f8;
   0x1b6db0006db6db00124920000b6db0000db6d80016db60000924900004924800024960000b6db00005b6d80006db6000092590000492480092db6480db24b60;
   0x2db6d80036db6c00092490002db6d80016db6c001924900024924800124924000124900005b6d80002db6000012490000492400002492000016d82007f92ff0;
   0x4b6480012492000080010007db6ff0012492c004924920004000800100000000000800005b6f80002496000012490000000400000002000002c00003ffff80;
   0xb6db0000db6d80092492c00db6db6016db6db00b6db6c80592492002c92590002492000036db00005b6d80002db60000124900000924000024920001b6db00;
   0xdb6d00002db6000492492016db6db00b6db6d804924920024924900924924000124900001b6d80002db6000012490000092400002492000002400003fffc00;
   0x4b6400000490000080010017db6fb00924924804924920004000800000000000000000001b6d00002492000012490000000000000000000000000003ffe000;
   0x36d80000012000092492480db6db6816db6db00b6db6d80492492012492490000492000016db00001b6d80002db60000124900000924000000000005b24000;
   0xb6400000000000592496007db6df00b6db6c00592496002c92590032492c000124900001b6d00000db6000012490000092400000492000000000007c00000;
   0x120000000000001c0038003fb6f8001e497c001d24b8003c0078001e003c000000000000b6c0000049200000249000000000000000000000000000fc00000;
   0x164960000b6db00005b6c80016db60000b24b0000c92580000492000006db00000b6c000005b6000002490000092400000000000d800000;
   0x24800000b6c00002db0000012480000092000000490000000480000036c000001b6000002480000012400000090000000000010000000;
   0x12000000080000000000000000000000000000000000000002000000010000000000000000000000000000000000000000000;
   0x120000000900000024800000120000000900000004000000000000000100000000800000020000000100000000800;
   0x90000002d80000036c00000490000002480000012000000010000000180000002c00000010000000080000002000;
   0x16db0000092400000492000000000000000000000000000000180000002400000010000000000000000000;
   0x92480002db6c00016db00001b6d80002492000012490000002400000036000000580000002c000000100000000800;
   0x2000000010000000000000002000002492400036db40005b6d80002492400012490000092480000010000000580000002c00000010000000080000002400;
   0x12000000090000000000000000000000000000036db6000492480002492400000000000000000000000000000180000002400000010000000000000000000;
   0x96d800004b6000002490000092480000492480006db6c000b6db60005b6d90002492400092492000002400000036000000580000002c000000100000000800;
   0x2db60000124900000924000004920000024924000b6db6000db6db0002492400092492000492480000010000000580000002c00000010000000080000002400;
   0x24920000124800000000000000000000000000000b6db6000492490002492400000000000000000000000000000180000002400000010000000000000000000;
   0xdb6400016c90000092480000492000000492490016db6d800b6db6000db6db0012492400092492000002400000036000000580000002c000000100000000800;
   0x16c000000920000004800000124000000124924001b6db6000db6db0012492400092492000492490000010000000580000002c00000010000000080000002400;
   0x12492492092492480000000000000000000000000196db6000492490012492400000000000000000000000000000182000002400000010000000000000000000;
   0x2db6db6c36db6db6492492492492492400492490016db6d801b6db6002cb6db00124924000824920000124100001b6580002586800012c300000904800024820;
   0x36db6db64924924924924924124924920124924001b6db6002cb6db0012492400082492000492490000090480012d868000b6cb0000490480002482000012410;
   0x12492492492492480000000000000000000000000186db6002492490012492400000000000000000000000000036d86000092490002490400000000000000000;
   0x6db6c924b6db6000492490002492400002492490036db6d00596db6002cb6db0012492400082492002492490016db6d801b6d960025b6cb00124904000924920;
   0xb6db6000492490002492400012492000010492400596db6002cb6d800104924000824920024924800124904001b6d96002db6cb0012490400092492002492480;
   0x92492000492490000000000000000000000000000586db00024924000104920000000000000000000000000001b6d96002492490012490400000000000000000;
   0x6db6c000b6db60004924900024924000024924000b0db6000596d90002cb6400010492000482480002492480036db6c005b6d96002db6cb00124904000924920;
   0x36db60004924800024924000124900000104000005964000060b20000104800004824000020900000124904005b6d96002db6d80012490400092492002492480;
   0x124900004924800000000000000000000000000000060000000900000004000000000000000000000000000001b6d96002492480012490400000000000000000;
   0x2db6c00036db6000492480002492400000090000000d000000160000000b0000000400000002000002492480036db6c005b6db6002db6d800124924000924920;
   0x16db60000924800024924000124900000004000000160000000b00000004000000020000000900000124924005b6db6002db6d80012492400092490002492480;
   0x124900000924800000000000000000000000000000060000000900000004000000000000000000000000000001b6db4002492480012492400000000000000000;
   0xdb6800016db0000092480000492000000090000000d000000160000000b0000000400000002000002492480036db6c001b6db4002db6d800124924000924900;
   0x2db00000124800004920000024900000004000000160000000b00000004000000020000000900000124920001b6db0002db6d80012492400092490000492480;
   0x4900000024000000000000000000000000000000060000000900000004000000000000000000000000000000b6db0000492480012492000000000000000000;
   0x12000000480000000000000000000000090000000d000000160000000b0000000400000002000000492480016db60000b6db00005b6c800124920000924900;
   0x4000000160000000b00000004000000020000000900000024920000b6db00005b6c00002492000012480000492400;
   0x6000000090000000400000000000000000000000000000036d80000092400002490000000000000000000;
   0x90000000d000000160000000b0000000400000002000000092000002db0000016d800000b60000004900000124800;
   0x2000000000000000400000000000000000000000000000002400000012000000080000000000000000000].
Definition emoji_rows_24 : list N :=
  [0x0;
   0x2c000000160000000000000000000000000000000000000000000000000000000000000000000000000000000000000000000000000000000000000000000000;
   0x10402000082010000000000000000000000000000000000000000000000000000000000000000000000000000000000000000000000000000000000000000000;
   0x2400000412000000000000000000000000000000000000000000000000000000000000000000000000000000000000000000000000000000000000000000000;
   0x64804900860024800120000005900000024000000120000004800000024000000004000000160000000900000004000000020000000800000000100000005800;
   0x82002480480092400490000006db00000b64800004920000024800000124000000020000000b2000000d80000012400000090000000480000000400000016000;
   0x10000080480000000000000006db64000924900004924800000000000000000000000000000b64000004920000024800000000000000000000000000004b6000;
   0x2082492010412480092492480db6db6416db6db00b6db6480492492002492490000492400006db60000b6d800005b64000024900000924800124900005b6d000;
   0x10412490090092400492492416db6db40b6db6d80492492402492490092492480002492000036db00005b6c00002492000012480000092400492400006db6000;
   0x10002080000000000402000017df7db60b2492480492492402080000000400000000000000012db0000092480000492000000000000000000000000016d90000;
   0x20824920124924900b2492482db6db6c16db6db60b6db6d804964924124924920000024824924b6c124925b0000092d80000092400000490092000002db24924;
   0x12092490010492400492492416db6db61b6db6d80496592412492492092492482492492436db6db45b6db6d82492492412492490492492482492492436db6db6;
   0x10400000080000402082017df7df60b24924804924924020820100104104000000000b6db6db6492492482492492400000000000000000000000036db6db6;
   0x4924924020924900b2492482db6db6c16db6db61b6db6d82496596412492492492492486db6db6cb6db6db65b6db6d82492492492492492492492496db6db6d;
   0x2492490012492480492492416df6db61b6db6d82496596412492490092492482492492436db6db65b6db6db24924924124924920924924824924924b6db6db6;
   0x82080000010000402082017df7df40b2c924824924924020820800104104000000000000b6db60004924800024924000000000000000000000000b6db6000;
   0x4924920124924900b2492482db6db6c36db6db41b6db6d82496596412492490000492490006db6c000b6db60005b6db0002492400092492492490006db6d000;
   0x12492490092492402492492436df7df41b6db6d824965964124924900924924800024924000b6db60005b6db00024924000924920004924824924000b6db6000;
   0x80400000402000402082037df7df00b2cb2c824924920020820800104104000000000000b6db60004924800024924000000000000000000000000b6db6000;
   0x24924920124924804b2492c82db6db6c36db6db05b6db6d82496596412492490000492480002db6c00036db60005b6d90002492400012492492480006db6c000;
   0x12492480092492082492492036db6db05b6db6d82496592012492490092492480002492400036db60005b6d80002492400012492000092482492400036db6000;
   0x80000000400080400090037df7df04b2cb2c82492492002082080010410400000000000036db6000492480002492400000000000000000000000036db6000;
   0x2492490c124924804b2cb2c02db6db6036db6db05b6db6c82596592012492490000492480002db6c00036db40005b6d80002492400012490092480002db6c000;
   0x12492410092492082492480037db6c801b6d92402596490012492080092490000000492000016db00000b6d80000492000012490000092480492000016db0000;
   0x80010000000080092000017ff0000096d80000492000002490000012400000000000000016db0000092400000492000000000000000000000000006db0000;
   0x492482412492412092480000db6800016db00000b6d80000492000002490000000092400000db6000016db00000b6c000004920000124800124800005b68000;
   0x2492012092490410492000006db0000036d80000492000002490000012400000000490000016d800000b6400000490000002480000092000092000002db0000;
   0x82000000400000000002db0000012400000092000000000000000000000000000000000000000000000000000000000000000000000000000000000000;
   0x4924b24024925860000000000920000000000000000000000000000000000000000000000000000000000000000000000000000000000000000000000000000;
   0x490490002482080000000000000000000000000000000000000000000000000000000000000000000000000000000000000000000000000000000000000000;
   0x10000000480000000000000000000000000000000000000000000000000000000000000000000000000000000000000000000000000000000000000000;
   0x20000000100000000000000000000000000000000000000000000000000000000000000000000000000000000000000000000000000000000000000000;
   0x10000000000000000000000000000000000000000000000400000000000000080000000000000000000002000000000000000400000002000000;
   0x30000000080000002000000000000000000000000000000c00000012000000080000000000000000000012000000080000000400000012000000;
   0x480000006c000000b00000005800000024000000100000120000001b0000002d00000016000000090000002400002490080032402c005920300024901800;
   0x20000000b0000000580000002400000010000000480000090000002d80000016000000090000002400000012000012402000412030002090590012402400;
   0xb0000000480000002000000000000000000000010000002f8000001200000009000000000000000200000200040041003e802400490002002480;
   0x480000016c000000b00000005800000024000000900000120000005b0000006d800000b60000004b0000002480006c00490096416d804900b6c06c805b00;
   0x20000000b0000000580000002400000090000000480000490000006f000000b60000004b00000024000000120000904024804940b6c00480db0090412480;
   0xb0000000480000002400000000000000000000080000006e000000960000004800000004000000020000100020800961bfc00080592010412480;
   0x480000006c000000b6000000580000002400000090000096000000da0000016c000000b6000000480000012400002082492012c36db01961b6d02182db60;
   0x24000000b6000000580000002400000010000000480000480000016c000001b60000004800000124000000900000124124900345b6d82182db6012412490;
   0xb6000000480000002400000000000000000000080000017c900000904000024820000024000000100000100000100305f7f020824b2012412490;
   0x492480002db6c00016db6000492590002492400012492000490480002d96c00036db20005b2d80002592400012c90002482492012cb6db0030db6d02586db60;
   0x24924000b6db60005b6db0012492400092492000492480002492400037db60005b2db0002592400012492000092480002092490030db6c00596db6002492490;
   0x24800001fffb60025b6490012492480012400000090000000480000037db60004b2490002492400002000000010000000010400032fbef80492496002092490;
   0x2496492036db6db05b6db6c02db6db60124924900924924004b2490006db6d800b6db6c005b6cb0002492480012492400492492406db6db00b6db6d805b6db6c;
   0x124924905b6db6d82db6db60124924900924924024924920024904800b6d86c005b60b40024904800124024004920100024924900b6db6d80db6db6802492490;
   0x100800007fffb6d824964920124924900004000020020000000000000bec02c004920120024800800000000000000000000820800b7db7d80492492002492490;
   0x2db6492036db6db05b6db6d82db6db6036d92490492492480492012006d801800b6c02c005b2016002480080092402400492492016db6db01b6db6d00db6db60;
   0x124924901b6db6d82db6db68124924900924924824924920024800800b6c00c005b00100024800800920004004900000124924801b6db6c00db6db6012492480;
   0x800001fffb6d824964920124924900924000000020000000000000b60004004900020024000000000000000000000000804001b6fb6c00496490012492480;
   0x2496492036db6db05b6db6d82db6db6012492490492492480490002006d800b00b6000d005b0016002480090012000402492490416db6d801b6db6c82db6db04;
   0x124924901b6db6d82db6db6812492490092492482492492002480090036800d005b00160024800900120004004900020124924801b6db6882db6db0412492480;
   0x124800001fffb6d80db6492012492490092400000490000000000000036c00c004900120024800900000000000000000000000001b6fb6080496490412492400;
   0x2496492016db6db01b6db6d82db6db6012492490092492480090012002d801b0036c00c005b0016002480090012400400492490c16db6d101b6db6082db6db0c;
   0x124924901b6db6d82db6db6812492490092492480492492000480080016c02c001b60160024800800124004000900120124924101b6db6080db6d80412492410;
   0x124800001fffb6d80c96492012492490092400000010000000000000016c02c000920120004804800000000000000000000800120b7db6080492482002492412;
   0xdb2492016db6db01b6db6d80db6db6016d92490092c92480092492000db2d80016d96c000b64b6000492480012492400492482416db6c320b6db05b05b6d824;
   0x24924900b6db6d80db6db6002492490092492480492492000492480006db6c000b6db00004924800024920000124900024920920b6db04005b6d92402492092;
   0x800000b7fb6d80496492002492490080400000000000000000000002db6000012490000492480000000000000000000000482036db2400092490402492482;
   0xc96492016db6db00b6db6c00db6db20124924900924924000124900005b6d00002db6000016d90000092400002492000092492c02db6496016d924800b6c92c;
   0x24924800b6db6c00db6db0006d92480092492000492490000092400000db6000016d80000092400000490000002480000490010006d804800b6402000490010;
   0x12492000492480000000000000000000000000000000000000080000000400000000000000000000000000000000000000000000000000000000000].
Definition emoji_rows_25 : list N :=
  [0x100000000800000000000000100000000800000024924000b6c920004924900024924000124920004924900;
   0x410000002080080000000400410000002080000000000000092492000db6db0006db6d800b6c92000492490002492400;
   0x410000002080190010000480410010002080000010000000092400000ffedb6012492490092492400490000000080000;
   0x10c02580190036c020805b0010c02d80190012c020800900124924901b6db6d80db6db6016db6db0092c924804924920;
   0x80012400c905b4010082d80080012400c80490010002480092492480db6db6816db6db0092c92480492492002492490;
   0x80002080432df6000092490082092480402080000000410092400000ffedb6816d92490092492480490000002480000;
   0x800000000000000000004b24b0006db6d800b6db6c005b6db00024925800124924124924901b6db6d82db6db6816db6db0192c924824924920;
   0x20000900100000000000000000000804024924820b6db7c80db6db0402492582092492080492490092492482db6db6816db6db0092492480492492012492490;
   0x20000900900004000000000020000004000104021befbf010492490412492402010412010082090092400001ffedb6812492490092492480492000000080000;
   0x2d80016c16c001b00900024804800120124924920b6db6d825b6db6412db6db2012492482492492416d924901b6db6d82db6db6816db6db01b6c924824924920;
   0x36c021b40904024824800124124000900124924805b6db6c06db6db6012492480492492402492492092492482db6db6836db6db0192492482492492012492490;
   0x12402492090402482480012400000090000082080df7df7e02492496092492480082082400410412000400003dbedb68124b2490092492482002000000000000;
   0x6da6436c36c825b64924024824824124124924961b6db6da2db6db6c16db6db6092492580492492c124924905b6db6d82db6db6836db6db04924924824924920;
   0xb6c265b6492402492482412412402492092492482db6db6c16db6db0092492482492492412492490092492482db6db6836db6db0092c92482492492012492490;
   0x12402492492402482480012412000000000010402db6fbf012492490092492480000410000002080092400003ffedb6836d92490092492482492000012480000;
   0x2db65b6c36db6db64924924824924924124924925b6db6db2db6db6c36db6db64924924824924924124b24905b6db6d82db6db6836db6db04924924824924920;
   0x36db6db4092492482492492412492490092492492db6db6e36db6db64924924b2492492412492492092492402db6db6036db6db0492492482492492012492490;
   0x12492490092492480000000000400000000002082db6df7e12492496492492480000080400000412012400002ffedb6012d92480092492400492000002480000;
   0x2db6db6c16db6db00924924824924924124924965b6db6da6db6db6c36db6db6492492582492492c12d924801b6db6c02db6db0016db6d800b6c924024924900;
   0x16db6db0092492480492492002492490492492486db6db7c36db6db0492492582492492412492490092492000db6db0016db6c00092492000492490002492400;
   0x2492490092492400080010000400000000000402db6dbf0124924b0492492400000002000000090000000000092da0000492400002492000000000000000000;
   0xdb6db6006db6db00924924004924920924924b05b6db6c06db6db60b6db6db0492492c024924960000024000000b60000005a0000006c000000920000004800;
   0x6da6db0012412400492492002482480492492486db6dbe4b6db6d80492492c82492490412492480000010000000580000006c00000090000000480000002400;
   0x2482480012412400000000000000000000002086db6df0412492582492492080000010400000482000000000000580000002400000010000000000000000000;
   0x1b01b00024824800120124000900900124924825b6db60b2db6db0416db6d820924960b24924b04000024000000b4000000d80000006c000000900000004800;
   0x400400000000000000000000000000092492002db6de0016db6c00092496000492480012492400000090000000d80000006c00000090000000480000002000;
   0x10000db6f82002492c10092490000000482000002010000000000000d80000002400000090000000000000000000;
   0x24960100b6db21805b6d92002db60100124b21804924920000024000000b0000000d80000006c000000900000004800;
   0x124820805b6c10c02db6110012492080092410c02492110000010000000580000006c00000090000000480000002000;
   0x24000801fe010400590082012400080012010400080082000000000000580000002000000010000000000000000000;
   0x480182012c008000b00104005801820020008000100104000024000000300000005800000024000000100000004800;
   0x80000000000000000000000080000000000000080000000000000000000000000000000000;
   0x12480000000000092492480000000000000000000000000000000000000000;
   0x4900000024000000000000060060000b2cb0000000400006db6000000000036db6db60000000000000000000000000000000000000000;
   0x124800000120000000000000a0030002c10580002012000036da00024004805b6db6d80000000000000000002000000000000000000000;
   0x2400000002000002db00000c0030002400480002410000036d80012400490492492480000000000000000002000000000000000000000;
   0x100000000000024120000924900005b6c000140020005b25b60005b6c00006db6002db25b6cb6db6db60000000000000000004104000000000000000000;
   0x1800000000000900900005b6c80012db2000080010006d82da0002490000036da00b6d92db65b6db6db0000000000000000002080000000000000000000;
   0x5800000000000000000004b6480012db2000080010002482480000490000012c80012492492492592480000000000000000002080400000000000000000;
   0xb60000000000100020005b6db6002db6d90010002c005b65b60001b6800006db6006db6db6cb6db6db60000000000124800824904820900004005800120;
   0xdb00000000004924b2002db6db0092db2480180014006db6db00004900000b6db0036db6db65b6db6d900000000000924004120924004800120168001b0;
   0x2db00000000004b6db20024f3c90492492480180034002496490000490000096d900124924924927d248000000000000000001249240000000001fc001f0;
   0x16db6c024924801b6db6580db6db6c36db6db6036006c00db6db6000092000016db6002db6db6c96cb65b25b6c96db00924900164924b0490402482d86436c;
   0x1b6dbe092492402cb6db2c16db6db01925925805b00b6006db6db00004900000b6db0016db6db24b27f2c87dbefb6e00492400092492482482412436ca65b6;
   0x1f6dbe092492480cb6db2812592c900924925801b00b40024924900004900000924900124924904927f2487497f92e0000000009249248248001243fc267fe;
   0x36db6c164925961b6db6582db6db6c165b6cb0036c16c00d924b60005b6c00016cb6802db6db6c924b64925b6db6da0092490012492490492402496db64b6d;
   0x7b6dfe092492422cb6db2c36db6db60825924001b6db0016c925b0002d920001b65b0002db6d80492db2492496592c004924800924924824924924b6db6db6;
   0x7b7ff0092492412cb6db2c124924920024920000b2cb0012c00190002492000092490002492480492ff2482496692c0000008009249248001008003ffb6dfe;
   0xb6db60124924b21b6db6582db6db6c005b6c00002002002d924b6c02db6d80016c36c005b6db60925b6c921b6c36d801b24b00124b6490092492482db6db6c;
   0x7b6fc00924925b2cb6db6c36db6db6002592000000000016c925b00165964001b65b0002db6d80492db2492c96592c02d92d80096592482492492436db6db4;
   0x7f7f80092492402db6db6c12492492002492000000000012c92590012492400090090002492480493ffa48349c192c02c1058019e493c80000000016fb6fb0;
   0xb6d900124924805b6db6d86db6db6c005b6c00000000002db6db6c06db6db0036c36c005b6db60925b6c921b6c16d824b25b2432cb6596092492480db6db68;
   0xdb7000092492402db6db6c36db6db6002592000000000036db6db40925924805b01b6002db6d80496db6490db00b60124924925965b6d80492492016db6db0;
   0xdbe000092492402db6db6c12492492002492000000000012c92590092492480490092002492480497ffe480480012000000000092492480000000006fb6fb0;
   0x5b6c000124924905b6db6d86db6db6c005b6c00012492c02db6db6c36db6db6036816c005b6db6092db6d920000000004924920124b64900924124005b65b60;
   0x6dbc000492492402db6db6cb6db6db60025920000b6db00025b6c900924924805b00b6002db6d80496db6490000000000492480092492480090090002d82d80;
   0x16df0000492492402db6db6c9249249200249200003ff80000092400092492480490092002492480497ffe480000000000000000092492400000000000d80d80;
   0x2db60000124924905b6db6da6db6db6c005b6c00002db6000036d80016db6db00b6016c005b6db6092db6d920000000000000000124924900020020000900900;
   0x36d80000492492406db6db6cb6db6db6002592000016d800001b6c000924924005b00b6006db6db0492db6490000000000000000092492480000000000000000;
   0x37f80000092492402db6db6c12492492002492000006d00000092400012492400490092002492480492ff2480000000000000000092492480000000000000000;
   0x6db00000124924805b6db6db6db6db6c00db6d800005b0000036d80002db6d800b6006d805b6db60925b6c920000000000000000124924900000000000000000;
   0xbe000000000000002db6db6c36db6db4012592000002c000001b6c000024920005a00360024924804925b2480000000000000000092492480000000000000000;
   0x78000000000000000492492012492490000490000002c00000092400000490000080010000000000092592480000000000000000000000000000000000000000;
   0x20000000000000000000000004924920000000000000800000124800000920000020020000000000124924900000000000000000000000000000000000000000].
Definition emoji_rows_26 : list N :=
  [0x480000002400000010000000000000002400000000000000000000000000000002480000000000000000000000000;
   0x82400000000000010080000092000003ff0000017f800000fe00000000000001ff80000480000000590000032000000012490000000000000000000000000;
   0xb65b0000492400016db6000092490000fffd00016db60000b6db0000492400016db60005b60000005b6c000b6580000000db6c000000000000000000000800;
   0xdb6d800024920001ffff000049248001ffff8001b6db0002db6d800124920001ffff0002490000006db6000db7000000006cb0000000000000000400000d00;
   0x3ffff800000000001ffffc00249248003ffffc007ffffc003ffff800000000007ffffc002490000016db6000c87000000002490000000000000002c00000f80;
   0x5b6db6002492480036db6c00492492007fffff00b6db6c005b6db60024924800b6db6c00db6c00002db6d804b6400000000db6c000000000000005a00000b60;
   0x6db6da00124924007ffffe0024924900ffffff00db6db6006db6db0012492400fffffe012490000016db60067f0000000006cb0000000000000016c00000da0;
   0x7fffff00000000007ffffe0024924900ffffff00ffffff00ffffff0000000000ffffff012490000016db60027f84e000000249000000000000001fc00003ff0;
   0xdb6db60024924900b6db6d8049249201ffffff01b6db6d80db6db68124924901b6db6d80db6db0002db6d800b6cb6c000005b6c00000000000006db0016db60;
   0x16db6db0092492400ffe7ff0124924901ffffff80db6db6816db6db0092492480ffffff812496d80036db6800ffce06800006cb00000000000000b6c001fedb0;
   0x1fd92ff0000000000ff01ff0124924901ffffff80fbffff81f5deff0000000001fbefff812496d80016db6000ff8e130000024900000000000000ffe001fffd0;
   0xdb6db68124924901b2492d8049249201edb6df01b6db6d80db6db68124924901b2cb2d82db6db6006db6d801b6cb6d800005b6c00000000000016db0016db64;
   0x164924b0092492400e924978124924901f6db6f80db6db68164924b0092492480c924978124b6db0036db6c00ff81fe400006cb00000000000001b6c004b6d92;
   0x1e4924b0000000000c000030100000101f6db6f80c9249781e4924b0000000000c000038024b6db0036db6c00ff81ff4000024900000000000007ffe005ffc02;
   0x2db6db6c12592c9019249658249249241edb6db01b6db6d82db6db6c124924901924925805b6db6006db6d800b6816d800005b6c004800000000b6db0096d924;
   0x16792cb0092496480cb24d30124924905b6db6d82db6db6c12492490092492482c92492c024b6db0016db6800ff01ff800006cb00168000000005bfe00db6490;
   0x12792c90002006000c300c30006004105f7dbef824b24d2412792c900020060000300c00024b6db0016db60007f01ff80000249003f800000000fffe007fe010;
   0x2db6db6c12592c900924965824b2492436fb6db65b6db6d82db6db6c12592c924924964801b6db6800db6d000b6816d80000db6c02d800100001b6da01b6c920;
   0x12492490092492480492492012792c905b7dbed82db6db6c12792c920924964824b24d24024b6db0006db60007f01ff800016db0036c02480000de0c02db6480;
   0x2492490000180000002c000000004005b7dbed824b24924124924900020020000100800024b6db0006db60003f80ff00001249001fc12480003fc0c02ff0000;
   0x5b6db6002492490092492402492c92436db6db41b6db6d82db6db64124b6490092592482db6db60005b6c00036c16d80002db6c02d96db60005b40805b64800;
   0x64924b00124924004924920024924900b6db6d005b6db60024b6490092592400492c920124b6d80002db00001fe0fe0000b6db6016c96db0006d80c06df2400;
   0x64b64b0000cb0000c165830000100000b6ff6c00492492002492480000080000000000012496d80000db00000fe0fe00009249201fc92490007f80c07fc2000;
   0xdb6db60124b6490192db2580492492006db6db00b6db6c005b6db6002492480012492402492db00005b6c00006c16c00036db6c16db6db60b6db0080db64000;
   0x164b64b0092492480c92497802592c80037dbec005b6db6002592c80012c964000b2590000006d80016db64000301fe0005b6db6496db0db2db6f00c16d90000;
   0x1e4924f0000000001e00007800092400037ffec000b6d90002492480002492000012480000006d800b6db6c000001fe0024925fe49ff80493fffe00c3fc10000;
   0x2db6db6c124924901b2492d80092490002db6d80016db6c000b6db00024b6480012492000002db6c16db6db0000036c02db6db6cb6db00b65b6da0086d920000;
   0x16c925b0092492483f9249fc00492400016db60000b6db00004924000024920000924900000b6db41b6db6d800007f0036db6ffe5b6c00db6db6c00cb6480000;
   0x1e0920f8000000003f8001fc00000000002db60000124800004924000000000000000000000b6db65b6db6d800003f0012497efe492000487fffc00cfe000000;
   0x2402406c120920101b04804800124800001b6c00002db0000016c80000092400002490000016db6c36db6db6000036006db6d86c000000005b6d80086c800000;
   0x4900000024000000120000000000000000000000924924924924800001800ffffe03e000000000000000412000000;
   0x12492012000000000000000000000000;
   0x80000002492480016000000490000012492480000000000000000000080000016c800000000000104800000120000000000000000000000000000;
   0x80000002c000000924924005f4000016d80000092492400400000000000000016c800005b6c000005800004924000004b0000000410000016580000182c00;
   0x7f0000002480000000000000ffe0000165800000924924004800000024000000bfff0000ffff80000ff00000000000004900000024120000fe7f00007f7e00;
   0x1b6c00002db6000012c924901b6d80006db6000036db6db05b6c000004920000b6db6d805b6db60001b68000924920001b6c0000049248001ffffc001b6db00;
   0x3ffe000036db00000bfc00003fff8000b6db00001ffd96c06db60000124800005fed92006db6db0003ff8002492480002db60000124924001ffffc002db6d80;
   0x3ffe0000124900001ffc00003fff8000965900001ffe92416db60000124900000bffb0007fffff0003ff80000000000024920000124924007ffffe003ffffc0;
   0x5b6d80006db6000036db24905b6d80016db6c00036db6db2db6d80002492000016db6000db6db6c005b6c000924920025b6d900024924900fffffe005b6db60;
   0x7ff7000036db00007fff90403db3c000b6db00007fff96c16db68000924900000fedf2016db6db4002d940004924800b6db6d80092492400fffffe006db6db0;
   0x7d930000124900007fff90002480c000965900007fff82406fff0000924800000ffff001e492490002000000000000017ffe400092492400ffffff007ff7ff0;
   0x492586006db60000b6db2490592580016db6c000b6db6db0db6d800124b2000016db6002c92492400496400092490002db6db00124924900ffdbff80db6db60;
   0x44900000b6cb0000792592402496c001b6db6000792596c06d930000925900000fffb2036000000002490000492400016db6c00092492400ffedff016db6db0;
   0x4100000e001000041019200061c0000965900004101924060030000865800000d3c3201e000000000080000400180006492000090000400ffedff01fc925f0;
   0x492c82006c920000b65924904b2c80006cb60000b6596cb0492d80012cb6000006d92402c924924000920000b65900004b6da20124924901f6db6f80db6db68;
   0x410030096590000492c924024920000be5f0000492c92402c920000925b000009a592036492490000490000492c80002c92422092492480fb6db7816db6db0;
   0x800800041800000c081200008000001e1c00000c0802400c100000005f000001818003e0000000004800000c0800000c10002082006083ff6df7c1e592cb0;
   0x496410002492000092492490092480002c96002092496db0492480002496000002492002c964b24000920000924904004924a2012592c901b6db6d82db6db6c;
   0x2492090012c90000492492400492000012c900104924924024920000124900000124800364b2592000480000492406002492422092496482db6df7c16db6db0;
   0x410000000400000010092000090000000400080010092400080000002080000000000038030300000010000010002400080002082006003df6df7c12592c90;
   0xb6412002492082012492490096400002492012016d96db00b64000005b6580002492002c964b2400492c00012490d800924220124924901b6db6d82db6db6c;
   0x490090012480c300925924004924900124800800bedb6c00ff2000002486c000124800364924920024b6000092416c00492422092592400db7db6016db6db0;
   0x2400c3001219200001249200240000001209240049000000008f80000240001c0000000100120000120124004900020000800005b7db6002492480;
   0x120120004900960124b24900164924004900100324b6db0092400006c96d80000490002c92592402c96c80012482da00924324024924900b6db6d005b6db60;
   0x490080002400db00921920024924920024001801925b6c004924800b24b6c00002400010492490012492400012016c00490022092cb2400db6db7006db6db0;
   0x580000000012492492000000000080492400412480090096f00000000000000000012492000000012400000090080ff0000fbffb701e4ff4b0;
   0x24924920024920300b2492482d96d96c02c960300124b6db04b65b6416c96db0012492002412492002db2480002480d80492496c124b64901f6db6f80db6db68;
   0x121b24900b24b0182c105924124924900b24b24004104924124925904b64b25801f24f4000092490016c92400492486c16c96c30092492483fb6db7c16db6db0;
   0x1804900b0030182c005b00124920900920924000000000124925904920921c07f24fe000000000012492400036002012492400090000483fb6dbfc1fc925f8;
   0x24964b6c16db6c305b2cb6002d96c96cb6cb6db0492c92006db6db64b2cb65b60b6db6d02412492002d96d80492c92006db6db20124924901fedb7f82db6db6c;
   0x12182db64b6db2186d965b00124924905b2cb64024964900925924b04924939b0ff65fe0000924800164b6c024964920965b6cb0090490483f96d9fc160b64b0;
   0x82db6082db0186c9e5b001249249049249200001e0000124924b0692493900ffe7ff000000000012092000018002012492410000000003402406c12012010;
   0x24965b6c965b6cb05b6db68024b6db60b6db6db0492c92006db6db60b24925b00b6db6d80002490002c96c80492c92006db6db20000000000000000000000000;
   0x80490092490082492490000492480492492000012000012492490492412000492492000000000000090000000002012492410000000000000000000000000].
Definition emoji_rows_27 : list N :=
  [0x12000000000000000000000000000002000000000000000000000000080000000000000000000010002000080010000400400000002000002400000000000;
   0x36d80000000000000480000016000002d800000004800000000000001b6c00000590000016000007f80d80036016c005b01b6002480d80000db00000000060;
   0xdb6d00000000000017d800001f000003e000000002480000000000003ffe000016d800001f80000ffc1fe005b41fe006d83ff001201fe00016d80000000080;
   0xd92d8000040000001ff8000018000003e000000000000000000000017ffe8000124900001f00000ffc3ff00ffc3ff007fc3ff000003ff000325c0000080090;
   0x1b65b4000db0000006db6000016000002c80000002492000000000002db6d80016db600001600001fdc2db00b6c36d80db65b6002482db0006db60000b6c16c;
   0x2d92d80016d800000bfff000008000003600000009249000001200003ffffc001b6db00001900000ffc3e700db67f6006d83db009243e7000b6db0002ffe490;
   0x3d92dc0016da00000ffff000008000003200000000000000000000003ffffc000924900000800000ffc32000d940820024824100000320000f24f0003ffe090;
   0x5b6db6006db6000006db6000096000002580000012492400012480006db6db0036db6c00012000006d82c900b6c124005b0096002582c90016db60005b6d860;
   0x2db6d80036db00000f6cb0006c900000320000000924900004924000ffffff005b6db60000800000b6c124005b00920024804800120124001b6db0007fff080;
   0x3ffff80036cb00000c0030000c900000120000000000000000000000ffffff00496d9200008000003e8020004900100024800000000020001ffff0007ff3000;
   0x1b6cb0006d92000006492000096000002c80000012492400092490016db6db00b6db2c00036000006d804800368124005b00920024804800b6db6c005b2580c;
   0xc9250009249000009a5900004900000124000004924920004924801ffffff805924960000900000160020001b0010002c00480012002000f92cbe006493010;
   0xc8210000009000001818000048000001a4000000000000000000000ffff2f8040200200008000001e000000080000000400000000000000f9009f006413010;
   0x96590002c92000012c920000b6000002c92400012492400092490016db64b00b2492400036000006d82cb00b6c16c005b0196006582cb00b2cb2d00492c82c;
   0x4924000965900000124800005b040001edb60004924920024924800f6492f00492492000490000092436d004901b6002482db0092436d00792596002c92010;
   0x800000000800000024000007fe40001ffbe000010080000180c000f2010600410082000092000092412400490492002482490092412400100004000410000;
   0x92c900025920000024920000b6db0000db6c00092c92400492592002592c90092c92400036080016da2db00b6c16c80db65b6016d82db00125920004964000;
   0x4924000124800000124800005b6d80016db6000492592002592c90093c9a400492592000490400092416c00c960b6012482d90092416c00012480002492000;
   0x24800000024000025ffc80007ff6000010080000080400002010000010080000080400092412400492092002480480012012400000000000000000;
   0x16480002db20100004900005b6db0000db4580092492400492492002492490092492400036000012db0d901b6496c805b25b6012d90d900024b20000b24000;
   0xb600001248058000240000659058001ef82c004924920024924800124924004924920001b0000192196c804920b6012490d80012096c80012c800005b0000;
   0x1000000000078001008001841808001fff24000024000000100000000800000024000004b0000012082402090090012490480012002400000000000080000;
   0x24000004900b6006c96000cb6cb6000db6180012592400092c900024b64800125924000b6c00032d904800360924825b0092412d90480002492000192c000;
   0x920000024005a00f25b001259698001fff2d800924900004924800124920000924900005b00000360824005b0090002d804800360124000f24b0007c96000;
   0x24004800000101805f00b201059408001edf0f800100800000800000000100000100800004300000120024001b00900025004800120024000f24f0007c02400;
   0x5b24b6016496c300b6cb6c009b2c96c16db61b0012db2000096d900005b6c80012db2000182c02002d804800360124005b0090002d80480016cb6c00db25b20;
   0x24104807f04fe4007b6592012492df0186590400096d900004b6400002db2000096d90002c300100320024001b00900025004800320024004f2cb2016f964b0;
   0x180007f8cff4007be482008492d801824900000024000000120000004800000024000060300000120004001b00800020004800120004004f3cf2002fb04b0;
   0x492c920b6db6d800b6db2580c82490010592c00002490000012480000092400002490000502800c025804800320024001b00900025804800b6db6c024b6492c;
   0x249e4907fedfe400db6d82006cb25001825900000024000000920000004900000024000020300060320004001b00800021004800320004004f24b2092492490;
   0x3c0007ffffe000492482003d82400182c1000000000000000000000000000000000000303e00203301cc007b009e003380c8003301cc000f24f0000092494;
   0x492c920b6db6c800924924000b0080010082000000000000000000000000000000000000082c00006582ca0032c16c005b0196006582ca00964964024924924;
   0x10000000000000000000000080000000000000000000000090000002492480000000000000000000000000012400000000000000000000002000000092000;
   0xb60000000004000000000000800000000000000000000004b00000124924800000000000000000005900000bff800000000000000000000120000001ffc00;
   0x16d800000000b00024800000b6c000024924920024800005b6c00002db6db6016400000092000002db6d80016db6c00012400012492400016d800000b6db00;
   0x5b6c00000000400092400002db6000012400000092400002db60000164b6d905b64000004900000bffb6c005b6db60000920000924900000b6c00000ffff80;
   0x792c000000024800000000024920000000000000000000024b20000100924805b6c000004920000bff924007ffffe000000000000000000092400003ffff80;
   0xb6db00004925b60124900005b6d00002492492012490000db6d80002492cb61b6db0000492400002db6d800b6db6d80012480012492400036da00005b6db60;
   0xdb6d00012482480492400006db6000012492000092480006db6800012496d90db6d8000249200001edb7000db6db6c000924000924920025b6c90007fffff0;
   0xf92f800000004000000000024920000000020000000000024b2000000012480db6d8000249200000ffff000ffffffc000000000000000027f7f90007fffff0;
   0x1b6db00024920a00924900005b6d80002492492012490000db6d80002492cb60b6c90000492c00000db6d001b24924800124800024920005b6db6000db6db60;
   0x2db6d80012490400402400002c92000012492000092480016db6c00012496d904924000024b2000006ff6002c00000000092400012490002dbedb0007fffdf0;
   0x7fffde00000000800000000024120000000020000a0c00016cb64000000024800000000024b8000002490003c000000000820000124800004b6c8000ffba0f0;
   0xd96d960024920100965900004924800024924b20164900005b6d80002492cb60924900004b6c800004924001b24924800124800024920000b6db0000db24960;
   0xe4924f0012490180492c82002492000012492400492c80002c9e000012496c90492400002cbe000002c92002c92492400092000012490000492c020064924b0;
   0x60830f000e180180080012000c1800001e182400002000003c3e00000e1824000c3c0000243e000000c10003e0000000001200000e1800000c3c0200e000030;
   0x596596002c92016092490000492c80002c924b2012c900005b2c80002c924b6096590000496c80000592c805b2492480016c80002c92000096592030c925920;
   0x2492480092490080092400002492000092492400092400002c96002092492490492480002496000002492002c964b24000920000924900004924a2006592c90;
   0x10000000400080000012000080000000412400012000002482002000410000010000000096000000080003c06030000000000000400480010002000180c00;
   0x12c800024920000124824804964004024924b2012d90000496400402492db6012c90000092c100004924005924924900124800024920b0012c920304925920;
   0x4924000124800000b6412002492082012492400092400002492012012496d900924000005b2580002492002c924b2400492c00012480d80092422002492490;
   0x92000002480000012012000490082002492400002400000490002000012480000000000490f80000490003c00000000402400002480480012002000010000;
   0x16c800025b20000024804000b64104025b24b20024924b00b6402402492db60124800000924b00000b64001924924801925900025b21b6016d82030492c920;
   0x920000024800000120120004900860124924000124924004900100124b6d90092000002c96d80000490002c92492402c92480002480d80092032002492480;
   0x82000010080000012012000000096000012000482492400000010010092480000080012492ff00000000004004800004924800000004800000124000fe000;
   0xb65b0006c96000092492400012006c024924921b6db2d80092402002496db60025b6c02d92db60000920004824924801b6c900004901b6002482c804b6d920;
   0xc927000b2492002412492002492030092412482492492402c92030012412d800924b6416c96cb0002492000012492002db2480002480d804920060027ffc80;
   0x2e827800fe4b64000120000060020100b00360024924124124124200000024804924ba0124124bc01e417c000000000025924800024804804804820004ff400;
   0x5b6db6016d96db0492c96d82d92592836496d905b6db2d82d92db20124924905b6d96c865b2c92c06db6db04824924001b64b40125b24305b6db6400092d900;
   0x2c92790496d925824964b6c16db64105b2cb6002492492436496d20492c120024964924924925960ffdbfe00012492002d92d80492c92002db6592000492400;
   0x2e927900024024800100b6c067fe010593c96002492412012492420002c000024924960724925960ffc9ff00000000002412480002c00002496492000000000;
   0x4b6db20b24b2496492c96db2cb6d928b6d96d805b2db6d86db6db20925924805b6db6d864964b2416db6db0000492000192db00925924b05b6db64000124800;
   0x2c92790492c924824904b6c165b64105b6db60024924920b6cb6da0492c920024924960f24927900ffdbff00000480000c96c00492c92002db6d92000092000;
   0x400400000000000000000002492010492492000000000012412400000400000000000010000490092492400000000000000000000000000492402000000000].
Definition emoji_rows_28 : list N :=
  [0x12000000012000000590000000000000000000000400000010000000000000000000000000000000000000000000000180010002c004000120020001800100;
   0x4b0000000490000036d80000000000000000000002000002480000000000000000000000010000000490000002000003f804800360020005b0090003f80480;
   0x4900000000000000f65f0000000000000000000000000002000000000000000000000000000000002490000000000007f800000ffc000007f8000007f80000;
   0x1b6c00000492480016cb6c000120000000924000004800005900000004924000000000000924900005b6c00000480000ffe092006d824900b6c12400db60920;
   0x2db60000124924001b25b40005b0000002490000002000002480000002492000000000002492480016db600001200000ffc24900b6c12400db6092007dc2490;
   0x24920000000000003b25bc000db600000000000000000000300000000000000000000000000000001249240000000000ffc00000fec00000f9c00000fcc0000;
   0x25b6d90002492480036db6c005b6c00000492400000400000530000002492480002490000492492002db6d80000480000db6092006d824900b6c12400d960920;
   0xb6db6d80012492400792496002db6000002492000092000002480000012492400012480002492480036db6c00000000006d804800b6c12400490092002480480;
   0x17ffe4000000000003bfffc006db6000000000000592000003480000000000000000000000000000012492400010000007f80480012002400490090002000480;
   0x2db6db0002492490036db6c005b6580000492400096c00000190000002492480012492000492492006db6db0002c000005b00b2006d805800364124004900b20;
   0x16db6c00092492400092490006492000002492000092000002c80000012492400092490002492490036db2c00012000002d80480036012400490090002400480;
   0x6492000000000000000000006082000000c10000012000001c80000000000000000000000000000012490400012000003e00480016002000090010000400480;
   0x5b6da2002492490002c92000492d80000592c80016c000001b20000024924800124924004924920064924b0002c000005b0092002c804800160124004900920;
   0x6c9242209249240009e590002c920000024920000b2000000c92400012492400092490002492490032492400012000002c82cb0096412c00490196002482cb0;
   0x2c9a402002010000018180000c10000000080000032000000c92c00000000000010080000000000010000400012000002482490092412400490092002482490;
   0x5b6da2012592c90002492000492480000492400006db60001b6db0002592c90092c92400492592006592c90002cb0000db65b6016d82db00b6c36d80db65b60;
   0x2592422093c9a480012c800024920000024920000b6db0000db7c00093c9a400492592002592c90093c9a400012080016482db0092416c004925b6002482db0;
   0x24920020020100000024000000800000004900000bed90000cbfc00003018000010080000180c0000301800001208001a480480092412400492092002480480;
   0x5b6c220124924900024920004b64000000b6400036db60000b6db0002592c90092c92400492592002592c90002c06000db65b6012db2db00b6416c805b25b60;
   0x24924220924924000124800025b20000004900005b7db0000db45800924924004924920024924900924924000360000124b0d90092096c804924b6012480d90;
   0x490002000080000002400000490030000000000cb28b0000ffe480000080000000000000000000000080000016000012490480012092400090092002480480;
   0xb6c32402492480000490000092406c00192c00186592c001b6c340024b6480012592400092c900024b6480002d800025b08b6412d90d80036096c825b00b64;
   0x4900220124924000024000004900b6007c9e000cb2cb4000ffe180012592400092c90002492480012592400036800012d904800360924825b0090002d80480;
   0x4900900000000000020000000800320164160004b2c92000ffe1b0000080000002400000010000000080000092800002d804800360024001b0090002d80480;
   0x4b6496c02492480096496400492482402d92d80196c92c805b6c16c005924800124920000924900005924800165804005b0092002d804800360124005b00920;
   0x16c96c3001249200048241601e087c300b7cb6c008b2c97c16db60b0002cb2000096590000592c00002cb20001828020025804800320024001b0090002580480;
   0x1249240000000000040000203f087e200b3c92400c10dbe0104920800024900000124800000924000024900004828000024004800120004001b0080002400480;
   0x6db6db2000492400092592406d96db6016db6cb00849b6c008369800004924000024920000124800004924000b05800801b00900025804800320024001b00900;
   0x965b6cb0002492000493c920ffd9ff800b6db0500c824900104924000024900000124800000924000024900005028004025004800320004001b0080002500480;
   0x12492410000000000003c000ffd9fc80092490000686290018492400000000000000000000000000000000000303800402000480012000400130080002000480;
   0x6db6db2000092000092592406db6d92016db6cb0036c36002c361800000120000004800000024000000120000105b00205b0196002580c80032816c005b01960;
   0x12492410000000000002400092492400092492400090080010080000000000000000000000000000000000000082400002080480012010400490092002080480;
   0x400010002000002400000000000000000000000000000000000000400000012000000000000000000000000000000000000000480000000000000000000;
   0x4901b6002d80d80000db0000000006000080000002c800000924924005b6000016d800001b6db6c00400000000400000016c800005b6c000005800004924800;
   0x2482db00ffc16c00016d80000000080006d800000b6c00002082482016db00001b6c00002db6db20124000000120000025ffc80016db6c00016d00012492400;
   0x3ff00ffc3ff000325c000008009001ff8000009240000009000001fff00004b24000025b2492016c80000092400007ff2ff003ffffc0001ff80000000000;
   0x4905b6016d82db0006db60000b6c16c02db6000036db00004b6c92402db68000b6db00005b6d96c16db60000124900005b6db6006db6db0002db00024924800;
   0x2482db00f6c365000b6db0002db6490036db00005b6c00002db6002036db0000db6d80002db6cb60b6db0000492400000dfed800b6db6d80036d80012492400;
   0x24900904324000f24f0003ffe09003fff0000492400003ffe00003ffb80004b2480003ffe4920b6db0000492400000fbef000ffffff8003fc80000000000;
   0x5901b6002582db0016db60005b6d06006db60000b6db00005b6db2406db6c000b6db00005b6db6c16db6c000924900000b6db2016db6db4002db40004924800;
   0x24804800120124001b6db0006db60800b6cb00005b6d00006db6002032c90000db6d80006db6cb60b6db0000492c00000ffff001b2492480032480002492000;
   0x4004800000124001ffff0007ff30000800104004b6400007ff3000032498000db2d80007ff3c920fffb0000493c00000ffff001c0000000012480002492000;
   0x4900b6002480d800b6db6c005b6d80c064920800b6db00005b6db2406db6c001b6db60005b6d96c06db6000096db00000b6db2036492492002db20004924800;
   0x400580012002400fb6dbe0064920100965900004925800064920120164900005b6d80006492cb60b24b00004b2c80000cb65001b0000000012480006492000;
   0x480000002000f9249f0064920100924800004925800064920000124900005d3c800064924820d24900004d7c80000c924001f0000000012480006492000;
   0x5b01b6006582db00b6db2d005b6d82c024920b00b6db00005b6db2402db64000b65b00005b6db6406db6000096db0000096db20365b6db2002db00005b6d800;
   0x2482db0092436d0079e596002c92010012490000492c80002c92412012c900005f3c80002c924b6096590000496c80000593c801b2492480012c80002c92000;
   0x24824900924124001924940024920000124800004924800024920000124900005d2c80002492492012490000492e000004924001f2692480002400002492000;
   0x5b25b6016d82db0016db60005b6c00c02db6490036db00005b6db2402db6000012c900905b6d92402db6000016db00000b6db0036db6db60005800005b6c068;
   0x2482d90092416c00012c80002492000012482480492400402492012012d90000492400402492db6012c90000092c000004924001926924900024800024920b0;
   0x24804900120124000124800024920000124820000924004024920000024800000924000024924920124800000924b0000492400192492480010480002492090;
   0x5b25b6012d92d90002db60001b6c00000db0090016d80c305b6db24005b6492016d800805b6db6c02db6000016d86c00036d80036db6db60164b60001b6c16c;
   0x12490d80012096c80016c800005b00000024804000b64104025b20120024924800b64024025b2db6012c800000924b00000b64001924924800925900005b01b6;
   0x24804800120024800124800004900000024000000920104004930000024000000920024024924920024800004924fe000092000192492400090490000490092;
   0x25b0092412d90480002db20001b6c000005b0090006d80db04b6592402cb6db6006d801805b6db6c005b24801b6db6c00016c800104b6d90016cb24000b6016c;
   0x2d804800360124000f24b0007c96000092410400012006c02490002092492480092002002496db6002492402d92db60000920000024924001b6c900004900b6;
   0x25004800120024000f24f0007c92400002402000012002402082000092492480092402002082492002493c82c92497800492400000000000092490000490090;
   0x5b0090002d80480016db6c00db65b20125b24900b2cb2182d925b2436cb65b61b6db6400492496c16db2db64b6db2d805b6db6092496c90016c924004b6c86c;
   0x25004800320024004f2cb2016f964b0492c12d82492582036086c00492492482c925b2012082400492492c82592c92c07fb6fe00024924001b24900125b2430;
   0x20004800120004004f3cf2002fb04b0002c12d80792582036082d0049249248249249200008000049249248649249be07f92ff00000000000924900005f0010;
   0x1b00900025804800b6db6c024b6492c92592db64b6db2186d965b0036db65b05b6db64024964900b6db6db6496d92db0db6db60100924800365b6c024b64920;
   0x21004800320004004f24b2092492490490c16da2436d920b6d96d80492492486d92db2012592400492c92c864924b2406fb7ff0000492000192db0012592430;
   0x3380c8003301cc000f24f0000092494000c124804b6d820b65d6d804024924024924920001c0000492492c874924bb00fff7ff0000000000082490000080010;
   0x5b0196006582ca0096496402492492412082492492492082496490012492490492492402496490092492490592496900cb6db60000020000004900024924920].
Definition emoji_rows_29 : list N :=
  [0x2000000012000000490000000000000000000000400000010000000000000000000000000000000000000000000000080010000400400;
   0x320000000000000120000001ffc00003ff8000000000000000000000f800004f0000000000000000000000013c800000120000004000007f00f2003e80f80;
   0x16d80012492400016d800000b6db0000db6d80000000000016d800001b0000036000000012480000000000002db6000016d800001b00000ffc16c005b41b60;
   0x1b68000924900000b6c00000db6d80016cb68000120000001b6c00000c000007b00000000924000000000001b6db00005b6c00000c80000ffe1b6006d82db0;
   0x1ffc00000000000092400003ffff80016c96c000b60000007ffc00000c000007900000000000000000000001ffffc000492480001c80000ffc3f700ffc3ff0;
   0x36d80012492400036da00005b6db6002d92d80016d800000b6db00000900000360000000924900000b6000036db6c001b6db00001b00000fec36d80db65b60;
   0x5b6c000924920025b6c90006db6db0036cb6c001b6c000005b6d000004000000100000004924800024900005b6db6002db6d80000c00000fbc192006d82cb0;
   0x7b2c000000000027f7f90007fffff0032492c005b6c00000ffe7000004000000100000000000000024920007ffffe0024924800004000007b0092002582480;
   0x36d800024920005b6db6000db6db6002db6d800b6db00000b6db0006db0000036c000004924920005b6c000b6db6d805b6db60001800000b6c16c005b01b60;
   0x5b6c00012490002dbedb0006db6db0017ff6c005b6580000c92500016400000190000002492480002492000db6db6006db6da00024000005b00b2006d80480;
   0x4b64000104900004b6c8000ffb24f001e593000492580000c92400002400000190000000000400012492000ffffff002c924800024000005f0090002480480;
   0x36d80006c960000b6db0000db6db6000db6d000b6db0000096db0000db0000016c000004924b2002db6d801b6db6d805b6db60005b0000036006c001b00b00;
   0x1b68000b6db00005b6d820064924b0006c92000492d80000593c80006400000192000002492480012492400db6cb60064924a00024000001b0090002c00480;
   0x9200009e5900004d3d820064924b0002c920004d3c80000492400006400000192400000492480012492400ff2497002492480002400000490092002482480;
   0x16d80006db68000b6db2030db6db6000db6d800b6db00000b6db0000db2400016db60004b6db2002db6d800b6db6d805b6db60005b20000b6c36d80db65b60;
   0xb60000b6db00005b6da2016592cb0002492000492480000492400006fb60000feda0002592c90092c92400d92596006592c900024b00004925b6012482db0;
   0x12000012c90480496402012592c90002492000492400000492400007d920000f2790002592c90093c9a400492592002592c90002410000c96092002482490;
   0x16c80002db60b0036db2030db6db60005b6c00036db0000036d80002db6d80016db60005b6db6006db6db00b6db6c005b6db60005b0c000b6c16d80db65b60;
   0x496c00036db0d801b6c220124924900024920000b64000000b6400036df60000f6db0002592c90092c92400492592002592c90002c06000c924b60124a2d90;
   0x4024000165804800b24020024924900024900000b64020000920000f2db60000ffc30002492490092492400492492002492490002400000492492012490490;
   0x1b2590002db61b6016d820305b6db60001b6c00016d80580016c80016d90580016da2c005b6db6002db6d900b6db6c005b6db60005b00001b6196c825b2db64;
   0x2d92480016d80d800b6c32002492480000490000092407c00192c00082192c001b6c30002492480012592400092c90002492480002d800025b0890412d90480;
   0x4924800024804800920124024b6480000490000012007c00792c001824924000ffe120024924800124924000924900024924800025800021b0090012d90480;
   0x1b6c900005b01b6006d82c805b6db60004b6400002d805b01b6db0012db6980016db2d801b6db0002db6d80016db6c001b6db0000db00800360924825b00924;
   0x2db2480006d80d804b60060025b6c80012486400412482402f92f80186c82c801f6c168004924800124920000924900004924800161800001b0090002d80480;
   0x25924800065804804924820004ff480012082403f107c2003f92780192490f804f2e1e0004924000024920000924900004924000121800001b0090002500480;
   0x1b64b40125b24305b6db64000b6db00024924905b2cb6400db6d96016596db0186d90c000b6db00005b6c00006db60000b6db0002c300100320024001b00900;
   0x2d92d80492c92002db6592000492400012182407f96ff6006db6c300801b2c008369800004924000024920000124800004924000b01800801b0090002500480;
   0x2492480002c00002496492000492400000180007f9eff60065924100c05820000120800000924000024900000124800000924000301800801b0080002000480;
   0x1b6db00925924b05b6db6400016d800024b6490db6db6c00db6d92006cb25001825b4000016c800000b60000005b0000016c800020300060320024001b00900;
   0xcb6c00492c92002db6d92000092000092592406df7d92006cb6cb0016c16002c160800000100000000800000024000000100000107a00005b0096002580c80;
   0x10000000000000492402000000000000080002492480002492410002010000000080000000000000000000000000000000000000080000410082002080480;
   0x1800b0002c005800100020001800b0000012000000000400000000000080000002492480016000000490000012492480000000000000000000080000016c800;
   0x3f80d80036016c000900b6003f80d80000db0000000002000080000002c000000924924005b4000016d80000092492400400000000000000016c800005b6c00;
   0x7f83ff007fc1fe000001fe007f83ff0003cb80000000020007f0000002480000000000000ffe0000165800000924924004800000024000000bfff0000ffff80;
   0xffe5b6006d82db0092436d80db65b60005b6c00002c00c001b6c00002db6000012c924901b6d80006db6000036db6db05b6c000004920000b6db6d805b6db60;
   0xffc2db00b6c36d004905b6007dc2db0006db60000b6c12402db6000036db00000bec00002db68000b6db00001b6d96c06db60000124800005fed92006db6db0;
   0xffc3ff00fec3e7000003f700fcc3ff000749e0001ffc12403ffe0000124900001ffc00003fff8000965900001ffc92416db60000124900000bffb0007fffff0;
   0xdb65b6006d82db0092436d00d965b6000db6d80036db2d805b6d80006db6000036db24905b6d80016db6c00036db6db2db6d80002492000016db6000db6db6c;
   0x6d82db00b2416c004901b6002482db0016db60005b6d02006db6000036db00005b6f90402db6c000b6db00005b6d96c16db6c000924900000fedf2016db6db4;
   0x7f80c8001201240009009200200048001fdbf0007fff02007db30000124900007fff90003c928000965900007fff82406dff0000924900000ffff001e492490;
   0x5b01b6002d82db0016016c004901b6002db6d800b6db0400492586006db60000b6db24905b6d80016db6c000b6db6db05b6d800124b6000006db6002c924924;
   0x2d80d80012016c000900b6002400d800b6db6c005b6d800064920000b6db00005b6d92406db6c001b6db60005b6d96c06db6000096db00000bffb2036000000;
   0x3e005800120024000800b00004005800fedb7f006925808004900000f24b000069259200269e40009659000069259240649300009e5d00000f7cb201e000000;
   0x5b00b2002c80580012016c004900b2016db6db00b6db0180cb2c82006db68000b6db24905b6d80006cb60000b6db6cb05b6d80012db6c00016db6402c924924;
   0x2c82db0092416c004901b6002482db00f6db6f005b6d82c024920300b6db00005f6d92402db6c000be5f00005b6d92406db6000096db00000b6db20365b6db0;
   0x2482490092412400490092002482490072cb2e004d3c80c0208208009e5900004d3c920024b200009e5d00004d3c82402c9a000012df000009e59003e092490;
   0xdb65b6016d82db00b6c36d80db65b6002db6d800b6db00805b6c10006db68000b6db24901b6d80006d968020b6db6db05b6d80002db6000016db6002db6db64;
   0x16482db0092436d804925b6002482db0016db60005b6c00002db6090036db00005b6d92400db6000032cb00105b6d92402db6000036db00000b6db0036db6db6;
   0x1a482490092412400490492002482490002592000492400002492000012c900004925920005b2000012c900804924924024920000125e0000012c8003e4b2792;
   0xdb65b6012d96db00b6496d805b25b60005b6c00036db00001b6c12002db6082036db24900b6c00002db6012036db6db05b6c00002db6580006db6002db6db6c;
   0x124b4d90092096c804924b6012484d90002db60001b6c00000db0090016d80c301b6d92400592490016d800801b6db6c02db6000016d86c00036d80036db6db6;
   0x124904800120924800900920024804800025b00000b6400000490000016d80c300b6592000092492016d800800b64924005b000000248f800016c8001e492492;
   0x25b08b6c12d90d80036096c825b00b6c001b6c00016d80000036012000db0096016db2490036492400db0010036db6db00b6c00006db6d80002db0002db6db64;
   0x12d904800360924805b0090402d804800025b00001b6c000005b0080006d80db00b6192002492492006d801801b6db6c005b24800b6db6c00006c000104b6d90;
   0x2d804800360024001b0090002d80480006496000792e00000490000002400580012000012492492002480000092492400492480192496f00002400000090480;
   0x5b0092002d804800360124005b0092000db6d800b6d960024b64920025b20300b2c92482d96d96c02db6030012cb6db04b65b6c16db6db0012db20024124920;
   0x25804800320024001b0090002d804800165964007b65b00121b24900b2db0182c125924124924900b6db64004124924124925964b6db25801f6df4000096c90;
   0x24004800120004001b008000240048001e5974007fec960001804900b2430182c005b00124920900924924000000000124925924924921c07f24fe000002000;
   0x1b00900025804800320024001b0090006db6db04b6d925824964b6c16db6c305b2cb6002d96c96cb6db6db0492c92006db6db6cb2db65960b6db6d024124920;
   0x25004800320004001b0080002500480096596402496492c12182db64b6db2186d965b00124924905b2cb64024964900925924b6492c939b0ff65fe000092480;
   0x2000480012000400110080002000480006496002006092c00082db6082db0186c9e5b001249249049249200001e0000124924f0692493900ffe7ff000000000;
   0x5b0196002580c80032816c005b0196002db6d90492c924824965b6c965b6cb05b6db68024b6db60b6db6db0492c92006db6db60b24925900b6db6d800024900;
   0x2080480012010400490092002080480002492002002492400080490092490082492490000492480492492000012000012492490492412000492492000000000].
Definition emoji_rows_30 : list N :=
  [0x480000000000000000000002000000002400000012000000000000000000000000000002000000000000000000000000080000000000000000000;
   0x16c800005b6c000005b00004924800005b0000002db6000036d80000000000000480000016000002d800000004800000000000001b6c000005900000160000;
   0x25ffd80016db6c0001ff80012492400006d800000b6db0000db6d00000000000006d800001b0000036800000002480000000000002db6000016d800001b0000;
   0x7ff2ff003ffffc0001ff800000000000124800000ffff0000d92d8000040000001ff8000019000003e000000000000000000000017ffe0000124900001f0000;
   0x5b6db6006db6db0003ffc002492480002db6000036db6c001b65b4000db0000002db6000016000002d80000002492000002400002db6d80016db60000168000;
   0xdfed800b6db6d8003ff80012492400016d800005b6db6002d92d80016d80000036db00000900000360000000924900000b6000036db6c001b6db00001b0000;
   0xfbef000ffffff8003ffc00000000000b24b20007ffffe003d92dc0016da00000ffff000008000003200000000000000009240003ffffc00092490000090000;
   0xb6db2016db6db4007db40004924800b6db6d800b6db6d005b6db6006db6000006db60000960000025800000124924000b6db0006db6db0036db6c000160000;
   0xffff001b2492480036dc00024920005bfff6000db6db6002db6d80036db00000b6db0006d900000320000000924900005b6c000b6db6d005b6db6000080000;
   0xffff001c000000003efc00024920000bfff2000ffff9f003ffff80036db00000f24b0000c900000120000000000000004924000ffffff00492492000080000;
   0xffff2036492492006db6000492480016db6c000b6db6d801b6db0006db6000006db60000b6000002d800000124964001b6db0016db6db00b6db6c000360000;
   0xdfef001b0000000036d800064970000b6db0000db6db6000db6d000b6db00000b6db0000c90000016c000004965b2002db6d801b6db6d805b6db60000b0000;
   0xdfff001f0492400017d80007fbf0000fedb2000f92497000c9250009659000009e59000048000001a4000000924900024924800ffff7f80492492000090000;
   0xbedb20365b6db2002db0000df7d80006dbec320b6db6d000b6db0006db6800016db60000b6000000db6400016db6c001b6db4016db6db00b6db6c000360000;
   0xdf7d801b2db6d80016d80006dbe8000bedb2010db6db6000db6d800b6db00000b6db0000db040001edb60005b6db2002db6d800b6db6d005b6db60004b2000;
   0xdffd001f3fb7f80007e00006ffe0000bfff2010cb2592000492400092490000012c800007fe40001ffbe000492592002592c900f3c9ae00492592000092000;
   0xb6db0036db6fb60005b00005b6d86806db64321b6db6d800b6db0006db6000006db60000b6db0000db6c000b6db6d00db6db6006db6db00b6db6d000361800;
   0x5b6c001b6fb7db0006c80002db60b0036db2010db6db60005b6c00036db0000036d80000db6d80016db6000db6db6006db6db00b6db6d00db6db6000490c00;
   0x5f7c001f6fb7db0032c80002db6090036da2010492492000492400012480000016c800025ffc80007ff6000492592002592c90092c92400492592000080400;
   0x36d80036db6db60164b60001b6c16c02db64320b6db6d80036d80002db6010002db00005b6db0000db65800b6db6d00db6db6006db6db00b6db6d000360000;
   0x1fec001b6db6db00b2590002ff61b6017f820105b6db60001b6c00016d80780016d8000659058001ef82c005b6db6006db6da0036db6c005b6db60001b0000;
   0x1fe800192dfec800b0490000ff0092017f82000492c9200009200001248078001258001841808001fff2400092c900024b6480012592400092c900004b0000;
   0x16d800105b6d90016cb24000b6816c005b01b6036db6c00016d800005b00b6006db6000cb6cb6000db6180036db6c001b6db4002db6d80036db6c000b6c000;
   0xb60000024924001b6c900005b00b6006d80c805b6db60000b6000006d805a00f6db001259698001fff2d801b6db0002db6d80016db6c001b6db00005b0000;
   0x4fe4000000900000924900007f0090007f804800ffff00024124800024101805f24b201059418001edf0f80092490000492480012492000092490000430000;
   0x5b6db6092496c90016c924004b6c86c16db6c30016db6c005b2cb6016496c300b6db6c009b2c96c16db61b0016db60000b6db0000db6d80016db6000182c020;
   0x7fb6fe00024924001b24900125b24304b6db20000b6db00024104807f04fe4007b6d92012492df01865904000b6db00005b6c00006db60000b6db0002c30010;
   0x7f92ff00000000000924900005b0010492d920000924900000180007f8cff4007be482008492d80182490000012480000492400002492000012480006030000;
   0xdb6db6010092480036db6c024b64920b6db6db0006db6000492c920b6db6d800b6db2580c82490010592c00002db6000036d800005b6c00002db6000502800c;
   0x6fb7ff0000492000196db00125924304b2cb2400016d8000249e4907fedfec00db6d82006cb2500182590000016d800000b6000000db0000016d80002030006;
   0xfff7ff000000000009649000008001049249200000240000003c0007ffffe400492482003d82400182c1000000240000001000000008000000240000303e002;
   0xcb6db6000002000000490002492492092492490000480000492c920b6db6c800924924000b0080010082000000000000000000000000000000000000082c000;
   0x800b00004004800000020000800b0000010000000000000000000000080000000000000016000000090000002492480000000000000000;
   0x12000000f800007f00fe003e80fc000001fc007f00fe0000b600000000040001000000008000000000000003fc000004b0000012492480000000000000000;
   0x16d800001f80000b6c3ff005b41fe002483ff00b6c3ff00016d800000000b0007f800000b6c00002492492017ff00005b6c00002db6db60164000000920000;
   0x5b6c00003f80000db43ff006d83ff009243ff00ffe3ff0005b6c00002c004001ffc00002db6000012c800001fff80002db6000017db6d905b6400000490000;
   0x492480001f80000ffc3ff007dc3ff000003ff00ffc3ff000792c00007f824803ffe0000249200001ff800001fff800024b200001ffd24805b6c00000492000;
   0x1b6db00001b00000b6c3ef80db67f7002483fb00b6c3ef800b6db0002ffe5b603fff00005b6d00002ffe49203fff0000db6d80003ffecb61b6db00004924000;
   0x2db6d80000d80000db47b6006483db009243ef00c947b6000db6d0003fff24807fff80006db600003fff20007fff80006db680003fff6d90db6d80002492000;
   0x24924800004000005901fe002482df001201ec000101fe000f92f8003fff04007fff8000249200003fff20007fff800024b200007fff2480db6d80002492000;
   0x5b6db60001800000b6c16c005b01b6002482db0012416c001b6db0007fff0a00f6db00005b6d80007fffc92036db8000db6d80007fffcb60b6db0000492d800;
   0x6db6da00024000005b01b6002482da0012016c004901b6002db6d800ffff0400492580002db20000ffff20007b6d80016db6c000ffff6d907fff800024b6000;
   0x24b6d800024000004900fe002480f8001201fc000800fe007ffffe00ffff0080492480002ff60000ffff20007f7d80016cb64000ffffa4807fff80002cfe000;
   0x5b6db60005b0000016016c001b00b4002c00d80016016c00df6db6006db7810096d900005b6d80006db7cb20b6df4000db6d80006db7cb60f6db00005f6d800;
   0x6db6da0002c000000b00b0002400580012006c000900b000fdb7ff00f6db0180c92c82006db70000f6db24005f6d80006c9e8000f6db6c905f6d80002dbec00;
   0x2db6d800025000004900b2002482580012016c004900b2007df7ff00feff0180492492007fbf8000feff24005bed80003c3e8000feff24007f7f80002ffe800;
   0x5b6db60005b60000b6c36d80db65b6016d82db00b6c36d805bedb6006dbec16092c90000df7d80006dbecb2036db0000db2d80006dbecb60bedb00005b6d800;
   0x6db7db00024b00004925b6012482db0092436d804925b6002db6d800b6db00805bed00006db68000b6db24001b6d80006d968020b6db64905b6d80002db6000;
   0x6fb7db00024100004924920024824b00924325004904920005bec00037fb00805ffe12002ff6000037fb24001ffd000065d2002037fb00005bed00002dfe000;
   0xdb6db60005b0c000b6c36d80db25b6012d86db00b6436d800b6db0006db6000036db24805b6d00406db64b2016db00005b6d00406db6db6036db00001b6c100;
   0x6db6db0002c06000c924b6012486db0092496d804924b60005b6c00036db00001bec12002db6082036db24000b6c00002db6012037fb6d905ffc00002ff6580;
   0x6db6db00024000004924928124944900120924800904928005ffc0001ff800000ffc12002ffe08203ffb2400032400002ffe00203fff24801ffc00000ff0f80;
   0x5b6db60005b00001b6196c825b2db6c12d90d90036096c80036d80002db6000016d804001b6c10402db64b2002c924b01b6c02402db6db6016d800000b6cb00;
   0x2dbed80002d800025b0890c12d904800360924805b0090c001b6800016d80000036012000db0086016d92400032492400db0010016db6d900b6c00002db6d80;
   0x2dbed800025800021b0090402d804800360024801b00904000b600001ed8000003e0120005b0096006d920004b24924005b0010016d924800b60800127f2ff0;
   0x1b6db0000db00800360924825b0092412d904800360124800b6db0006db6000092c924000b6006c025b24921b6db2d800b6402002db6db6006db6c82db6db60;
   0xdb6d800161800001b0090002d804800360024001b0090000cb67000bed920024364920025b2030092c12482492492402db2030012c12d800b64b6c16db6cb0;
   0xfffd800121800001b00900025004800120004001b0090002e9e7800ffcb64000160000065f20100b0c360024924124127b2420000c024804924bac125b24bc;
   0xb6db0002c300100320024001b0090002d804800320024005b6db6016d96db0492c96d82db6592836496d905b6db2d82db6db20124924905b6d96da65b6c92c;
   0x5b6c000b01800801b00900025004800320004001b0090002c92790496d925824964b6c16db64105b2cb60024924924365b6d20492c12002496492c925b2596;
   0x1b6c000301800801b00800020004800120004001b0080002e927900024024800100b6c067fe010593c96002492412012492420002c00002492496c72492596;
   0x16d800020300060320124001b00900025804800320024004b6db20b24b2496492c96db2cb6d928b6d96d805b2db6d86db6db20925924805b6db6d864964b24;
   0x120000107a00005b0096002580c80032016c005b0096002c92790492c924824904b6c165b64105b6db60024924920b6cb6da0492c920024924960f2492790;
   0x80000410082002080480012010400410082000400400000000000000000002492010492492000000000012412400000400000000000010000490].
Definition emoji_rows_31 : list N :=
  [0x80000016c800000000000104800000120000000b6000000590000000000000000000000400000030000000000000000000000002c000;
   0x400000000000000016c800005b6c000004800004924000004b0000003ffe000036d8000000000000008000001f000002f800000000000000000000001bec00;
   0x4800000024000000bfff0000ffff80000490000000000000490000007ffe0000f65f0000000000000ff000001f000003f800000000000000000000007ffc00;
   0x5b6c000004920000b6db6d805b6db60000920000924920001b6c00000ffff80016cb6c000120000001ffc00002d800005b00000004924000000000001ffff00;
   0x6db60000124800005fed92006db6db0002490002492480002db600003ffffc001b25bc0005b0000003ffe00001e000003d80000002492000002400003ffffc0;
   0x16db60000124900000bffb0007fffff000249000000000000249200003ffffc003b25bc000db6000007ffe00000e000003680000000000000006c00003ffffc0;
   0x2db6d80002492000016db6000db6db6c004924000924920025b6d90007fffff0036db6c005b6c00000ffff00000400000530000002492480002db60007ffffe0;
   0x16db6c000924900000fedf2016db6db40024900004924800b6db6d800ffffff00792496002db600000ffff000092000002480000012492400036da0007fffff0;
   0x24920000924900000ffff001e492490002000000000000017ffe4000ffffff003ffffc006db600000ffff0005920000034800000000000000b6db000ffffff0;
   0x5924800124b2000006db6002c92492400496400092490002db6db001ffffdf003fdb7c005b6d80000db6f00096c000001b0000002492480016db6000ffffff0;
   0x2492000092590000096d92036000000002c90000492400016db6c000ffff6f001ffdf0006db600000edb60000b2000002d800000124964001b6db001ffffff0;
   0x200200008658000008241201e0000000000800004000000024920000ffff6f000f7df0006df600001fdbf000092000001d800000024960001b6db001ffffff8;
   0x492c80012cb6000002c92402c924924000924000965900004b6ca201edb6db0016db60005b6d80000db7d80016c000001b6000002db6d80036db6c00ffffbf8;
   0x2c920000925b000009e592036492490000490000492c80002c924220f6db6f000befb0006dbe800016db60000b2000000db6400016db6c001b6db401ffbedf0;
   0xc100000005f000001818003e0000000004800000c0800000c100020f7dbef800befb0007fbf800006ff60000f2000000dfec00017dbec005bedb600ffb7df0;
   0x492480002596000002492002c964b24000920000924904004924a2016db6db0016db6000db6d800005b6c00016db60001b6db0006db6db00b7dbed00fb6db60;
   0x24920000124b00000124800364b25920004800004924060024924221b7dbed800b7db0006db6000006db60000b6db0000db7c000b7dbed00dbedb6007db7df0;
   0x800000024800000024000380307000000100000100024000800021b7dbed80037da0002ffe000002ff60000fed90000cbfc000b7dbed00dbedf6007fb7df0;
   0x924000025b6580002492002c964b2400492c00012490d80092422016db6db0006db60005b6c000005b6c00036db60000b6db0016db6db00b6db6d80db6db60;
   0x2492000002486c000124800364924920024b6000092416c024924220b6db6d80036d80002db6010002db00005b7db0000db45800b6db6d00db6db6006db6db0;
   0x8000000008f80000240001e000000010012000012012400490002036ff6c0001ff80000db6030000db0000cb28b0000ffe480036db6c005b7db6006dbeda0;
   0x92400006c96d80000490002c92592402c96c80012480da0092432406db6da0002db00000b6c06c001b6c00186592c001b6c34002db6d80036db6c005b6db60;
   0x4924800b24b6c00002400010492490012492400012016c00490022036ff6c00006d000005b00b6007dbe000cb2cb4000ffe180036db6c001b7db4002dbed80;
   0x412480190096f0000000000000000001249200000001240000009003ffffc00007e000007f003a016ff60014b2c92000ffe1b0016ff6c001b7db0002dbed80;
   0x4b65b6416c96db0012492002412492002db2480002480d80492496c02ffff800965b64004b6482402db6d80186c92c805b6c16c02db6d80016db6c001b6db00;
   0x124925904b64b25801f24f4000092490016c92400492486c16c96c30017ffec00492c9601e087c300b7db6c008b2c97c16db60b0017dbe0000bedb0000db7d80;
   0x124925904920921c07f24fe000000000012492400036002012492400017ffe00040000203f087e200b3d92400c10dbe010492080007ffe0000bfff00007ffc00;
   0x6db6db64b2cb65960b6db6d02412492002d96d80492c92006db6db2000db6d80092592406d96db6016db6cb00849b6c008369800005b6c00006db60000b6db00;
   0x925924b04924939b0ff65fe0000924800164b6c024964920965b6cb0006db6000493c920ffd9ff800b6db0500c82490010492400002db6000036d800005b6c00;
   0x124924f0692493900ffe7ff000000000012092000018002012492410002db0000003c000ffd9ffc0092490000686290018492400000db0000016d800000b6000;
   0x6db6db60b24925b00b6db6d80002490002c96c80492c92006db6db20000b6000092592406db6db6016db6cb0036c36002c361800000b6000000590000002c000;
   0x12492490492492000492492000000000000090000000002012492410000480000002400092492480092492400090080010080000000000000000000000000000;
   0x12000000000000;
   0x2490092412400492492002482490092412400492492002482490092412400492492002480000492000092000000490000000492000092000016d800001b6db6c;
   0x924804924920124924900924924804924920124924900924924804924920124924900924000024900024900000124800000024900024900001b6c00002db6db2;
   0x124804924920124824900924124804924920124824900924124804924920124824900924000124900024920000124800000124900024920004b2400002492492;
   0x24924924924824924924124924924924924824924924124924924924924824924924124900024924004924000024920000024924004924000b6db0000592d96c;
   0x92482492492412492492492492482492492412492492492492482492492412492492492400012490002492000092490000012490002492000db6d80002492cb6;
   0x124824924124104824924924124824924124104820924924124824924124104824924924000104900020920000924900000104900020920004b2480002492492;
   0x24924924924824924924124924924924924824924924124924924924924824924924124900024924004924800024920000024924004924800b6db00004925b6c;
   0x12482492492412492492492412482492492412492492492492482492492412492492492400012490002492000092490000012490002492000db6d80002492cb6;
   0x10402410186406082022420c10402410186406082022420c10402410186406082022420c00012080000c32000086190000012080000c32000db2d80002492492;
   0x2cb24b2c92482492596416592cb24b2c92482492596416592cb24b2c92482492596416590002596400492400002cb20000025964004924001b6db6000492496c;
   0x12482492596416582cb20b2c12482492596416582cb00b2c12482492596416582cb00b2c00012490002cb2000016580000012490002cb20005b6c800024924b6;
   0x20000800104004000020000020000800100004000000000020000800100004000000000000004000000800000000000000004000000800005c3c00002410482;
   0x25920964924824924b2492c925920964924924924b2412c925900964924924924b2412c900804920004924000025920000804920004924000b65b0000492cb64;
   0x924804924924124824924924124804924924924824900924124804924924924824900924024824800024900000124800024824800024900005f3c80002c924b6;
   0x24800904904024004924920024800900924924004800120024000900924924004800120024804800004800000024000024804800004800001c2c00000410492;
   0x2d92096496c805b04b6db6c82d92096416db6db00b2002c82590096416db6db00b2002c82db65b20000b6000000590002db65b20000b6000012c900904964924;
   0x92480490492402402492492092480490092492400490092002400490092492400490092012492480012492400492492012492480012492400092400402492db6;
   0x12480490492412402092490012480490002492000490092002480490002492000490092012490000092012400490092012490000092012400000000000490492;
   0x6db65b6cb6d82db25964b6496db25b6c92592d925b6c16d92db25b6c92592d925b6c16d92c96c92416d92db01b6c96d82c96c92416d92db00165800804925b6c;
   0xb24b64964924924b6c92492cb24b64965924925b64924924b24b64965924925b64924924124965b60924924824924924124964b60924924800b6402402492db6;
   0x90492092482490492480012490492092490402492092482490492092490402492092482402012492082490482092482402012492082490480010002002002492;
   0x64b6cb64b24b64965b6cb2db64b6cb64b6c925b64b65b64b64b6cb64b6c965b64b65b64b2592db6c124b64900b65b6482592db6c124b64900024801805925b6c;
   0x924b64d24b65964b6d967b6cb24b64d25b2cb2db66b2cb64924b64d25b2cb2db66b2cb6412596db60b65964826b2cb6416596db60b6596480092002002496db6;
   0x924124824124824924824124924124824924324924024024924124824924324924024024120924b20124824804024024020924b2012482480080402002002492;
   0x6496c924b2cb64965b6496db6496c924b6c925b64925b24b6496c924b6c925b64925b24b6492db6c32cb64960925b2480492db6c12cb64901b24b6400492496c;
   0x924b64924925924b6db24b6cb24b64965b2492db6492c924b24b64925b6496db6496c92412496db6092592480496c92402496db60925b2402c925b2012082400;
   0x92492092490c924924b24924b24920924924924920924904924920924924924920964904124924b20904924800924904024924b2010492402492492000080000;
   0x6cb6d92cb65b6cb65b6cb6db6c96d92cb6d92db6592db65b6c96d92cb6d92db6592db25b2c96db6c165b6cb2012db6580096db6c025b6c805b6db64024964900;
   0xb65b6cb64925b65b6d924b6c924b24925b6cb6db6cb6d96c92496cb65b2492db6492c924165b6db61b2db6582492d96c12496db6092592486d92db2012592400;
   0x924924924924924925924924924924924924924924924924124924924924924924924924124924b24924924824924924124924b20924924824924920001c0000;
   0x24924924924924924924924924924924924924924924924924924924924924924924924924924924924924924924924924924924124924924924924024964900].
Definition emoji_rows_32 : list N :=
  [0x10000000000000000000000080000000000000002000002000080;
   0x20000024800000000000000000000000100000004800000020000000b6000000000400000000000080000000000000012000012400490;
   0x920000004800005900000000924000000000000124800001b6c00000480000016d800000000b00024800000b6c000024924920124900024900924;
   0x80000000490000012000006480000002492000000000000492480002db60000120000005b6c00000400400092400002db6000012400000092400092482492;
   0x5b0000002490000000000003400000000000000000000002492480002492000012000000792c00002482480092400002492000002480000092400012482492;
   0x1b6c00000492400000400000590000000492480000490000492492002db6d800004800000b6db00024925b60124900005b6d00002db24920124900024924924;
   0x2db6000002492000002000002400000012492400012480002492480016db6c00002000000db6d00012482480492400006db6000012492000092480092482492;
   0x2db6000002492000012000002400000000000000000000002492480012492400000000000f92f80012490400492400002492000012492000092080010482092;
   0x5b6d800004924000b6c000001b0000002492480002492000492492006db6da0002c000001b6db00024920a00924900005b6d80002db64920124900024924924;
   0x6db2000002492000092000003c80000012492400092490002492490036db2c00012000002db6d80012490400490000002db2000012492000492480012482492;
   0x6492000000412000092000003c80000000000000000000002492490016490400012000007fffde00124100804000000024920000124120000a0c80018602618;
   0x492580000592c80002c00000194000002492480012492400492492006db24b0002c00000d96db60024920100965900004925800064924b2016490002cb24b2c;
   0x6492000002cb20000b2000000c8000001249240009249001249249003249240001200000e4924f0012490180492482002492000012492400492c80012482492;
   0xc18000000410000012000000c000000000000000000000024900900100004000100000060830f000e180180080012000c1800000e192400002000002010080;
   0x492c80000492400006d920001b6da00024924800124924004924920064924a0002c80000596596002c92016012c90000492c80002c924b2012c90002496d924;
   0x24920000025920000b7db0000fb7c00012492400492492002592c90012492400012400002492480012490080092400002492000092492400092400092492490;
   0x80000000000000036c90000d97c00003018000010080002180c80003018000012000000010000000400080000012000080000000412400010000006c92490;
   0x492400000492400016db60000b6db0002592c90092c964004b2592002592c90002c00000012c800024920000124824804924004024924b2012d900024b6db20;
   0x24920000025b00005b6fb0000df6d80092492400492492002592c900924924000160800004924000124800000b6412002492082012492400092400092492480;
   0x5b00000004800004b7db0000ffc480000000000000000000000000000000000016000000092000002400000012012000490082002412400002400010482412;
   0xb6406c00092000092592c001b6c30002492480012492400492492002492480002d82000016c800025b20000024804000b64104025b24b20024924b6c924b2c;
   0x4900be002490000cb2cb0000db6180012592400092c900024924800125924000360100000920000024800000120120004900860124924000124924b64925b6;
   0x7a00301e000c30c90000ffe1800000800000024000000100000000800000160000000820000100800000000120000000960000120004824924964c2092;
   0x92002c02d92d80196db2c001b6c16c024924800124924000924900024924800165804000b65b0006c96000092492400012006c024924921b6db2d86d965b6c;
   0x249203203ec97c008b6c96002dbe1f00124920000924900004924800124920000b2c00000c927000b24920024124920024920300924124824924924b64924b6;
   0x1f007c3003fc13c00092c97c00c9e0f0002490000012480000092400002490000082800002e827800fe4b64000120000060020100b0036002492412492410492;
   0x2d92db2006db6cb01b60b6d80cb6d920005b6c00002db2000096d900005b6c000305800005b6db6016d96db0492c96d82d92592836496d905b6db2d86db2cb6c;
   0x3fd97fa00b7db2500c10cb6010492800002492000012480000492400002492000582800002c92790496d925824964b6c16db64105b2cb60024924924b64964b6;
   0xffd9ffc00b3c90000403090010492400000000000000000000000000000000000602000402e927900024024800100b6c067fe010593c96002492412092492492;
   0x6db6db2016db6cb00b6d36002c365800000920000004900000124800000920000305800804b6db20b24b2496492c96db2cb6d928b6d96d805b2db6d86db65b6c;
   0xf7fbfc800965b65001b61b00101b2400000000000000000000000000000000000183c00002c92790492c924824904b6c165b64105b6db60024924920b6db6db6;
   0x92492400092492400090080010080000000000000000000000000000000000000002400000400400000000000000000002492010492492000000000012482492;
   0x10000000492490002c00000012000000492490000000000000000000010000000490000000000002082000002000000002400000082400482410080012c800;
   0x5900000124924800be000000db00000124924800000000000000000005b0000016d800000100000124900000b2000000092400002cb60024365824005b6c00;
   0x4900000024000001ffc000024b20000124924800b0000000000000017ffe0000bfff00000fe000000000000092000000492400003ffe0024bffd24007b6e00;
   0x1b6c00002db2492036db00005b6d80002db6db60b6d80000092000016db6db0016db6c00016d80012492400016d800000924900005b6c00496db64901b65b00;
   0x2db600003ff800007fff80006db6000017fb6590db6c000004900000b7fb24001b6db40005ffc000924920001b6c00002492480006db60024b6db2402d92d80;
   0x249200007ffc00007fff800024b200001fff0480db6d80000492000017ffe0007ffffe0007ffc00000000000092400002492480007ffe0024ffff2403d92dc0;
   0x5b6d80016db64920b6db0000db6d80002db6cb61b6db4000492480000db6d80036db6c000b6da00124924004b6db20004924920125b6c90496db64905b6db60;
   0x6db60001ffff2000ff6f80016db6c0003fff6590db6d8000249200001fdbf000592596000ff2c00092490006fb6fb0002492490496db64824b6db24024924c0;
   0x24920001ffff2000f907800124b2c000ffffa480dbff8000249200000ffff000400002000f80e000800100027fff90002492490493ffe4820bff90403fffdc0;
   0xdb6d80036d96c921b24b6002db6d80016db6db60b6db0000492c80000db6d800924924800b24b00124924005b6db60004924920925b6c92492db64901b6db40;
   0x16f96c001f24f2000c92480016db6c000ffcfe590ff6f800024b240001ff97c00000000000c96400092490000db6d80002492490492db2492496d92400492480;
   0x1fc83c0008001a4000c30c001ec92c000f203c480f9078000203840001e407c00000000000482000090014000c924800024100904927f2480417c82000400000;
   0xc92480032492cb2196596000db2c80012492cb61b24b6000496c800024924800924924000924b0012492c001b2c960104924920924b64924b25925900925900;
   0x12492400092492400492480013cbe400192496490c925800124b6400012492c00492492000c926001924940004924a2002492490492492492490096400493400;
   0x1041040021861a401c100c0013c3e400186186481cc30c000243e400010c30400000000000610e001861840000c3082002180c10492012480400002000083000;
   0xcb2480032492cb21b24b6000d92c804124925b6196596000492c800024924800924924000b2db00124924101965960304b25920924824924920024900924900;
   0x12492c001924b2400cb6580012492c02192496490c92580012496400012492c00492492000792c00192494580c924a2012592c90492412482480012400492400;
   0x1e080c0038203a400f1278001e080c021c041e481c101c0012086400018083c000300c00006804001c041c481c101c2000180c00012000402000000400010000;
   0xc92580436596cb21b24b4000c92580416492db61b24b60004b64b0002c925800924964800125b0016492cb61b2496030492492096582cb24900004900124800;
   0x1e5b3c821f2cf2400f92d9241e5b3c021f24bed90cb6580012592d8001e593c004b2492000492c001f24bcd80cb65a2002492490496416582400002400092400;
   0x1e083c821f00f240040249241e083c101f2c3e480e16780000400f8001e187c00000000000402c001f2c3c480e167c2000010000080002002400002400092000;
   0xd92d96436496db20b64924b0d92d82c16c96db61b24b4000592db6002d92d80092592400192590016c96db61b24b60304924920924824924800004900124800;
   0x1ec97cb61924b2402db249241ec97c100f24fed90f92d90016c96da001e497800092c90000c924800f24b8d80f92f92402492480496412482000000400092000;
   0x60020b60900b0002d924924060020100f00be48041249001fc1fdf0016002000000000000cb2480080010480412192400092400006002000000000000000000;
   0x592582c36496c925b6db2d80db6d82016496db60b6d96c82d92db6800d92d80012c924001b6c900025b20b60b6db05800924900924804924b6016d904b24b20;
   0x164924105b25b6482d92492416ff2c301b24b6482db24b6416c9ecb003ecb7c00016d80002d92480092c90580d92582000492480496002482db00b6406c105b0;
   0x60020105b00b6002d924124125f24201b24b6002d924b2012c1e4be03fdbfc00002c00002d92480003c00002492582000090000000000002490092402010000;
   0x2db6d928b6cb6c005b6db2d82db6db2036db6c005b6db6d82db2db2c06db6db00024900001b25b60125b24305b6db64000924900120000925b6c16db0492c920;
   0x16db64105b65b6002d92492036d96c205b6db6002d964964325b25160ffdbfe00002400002c96d80092c92002d92592000492400000000006db01b6c0243e480;
   0x7b60105b25b60024924920124924205b65b6002c9249603259251207ffffe00000000002c16d80000c000024925920000000000000000024900b2400018000;
   0x2cb6d928b6cb6c00492db6d82db6db2036db6d005b6db6d86db6db2006db6db0000000000192db00124924305b6db64000124800000000005b6c16db0492c920;
   0x2492010492492002012492012492400492492002492492012492410012492400000000000002000000000002492482000000000000000002490092400010000].
Definition emoji_rows_33 : list N :=
  [0x80090000400400010002000000090000400400010002000080090000000400000080000000000000000000;
   0x24000000000000004b0000002c000000b00000bec16c005b01b6006d82db0012016c005f01b6002d82db0036016c004901b60000b60000000004000000000;
   0x92000000000000037f800000b6400002f80000ffe5fe006d83ff00b6c3ff804905fe007f83ff00b6c3ff805b05fe002483ff0002db0000000002000080000;
   0xffff0000492400007c80000ffe7ff81ffe3ff00ffc3ff800007ff80ffc3ff00ffc3ff807fc7ff800003ff0003c9e0000100020007f0000;
   0x92490000092000036db6c000b6db00005900001ffeb6d80db65b6816db6db00924b6d80ffe5b6816d86db00b6cb6d804905b68005b6c00006d82d801b6c000;
   0x4924800004900007ffffe002db6d80006c00001fbe7b7816da7cb01b6c7e7804927b780fdc7cb00b6c7e780d967b7802487cb0006db60001ffc12403ffe000;
   0x7ffffe002492480006000001fbe68381e4e641819267018000068380fdc64180b2c7018049068380000641800749e0003ffe12007fff000;
   0x4924920004924000b6db6d805b6db60004800001b6eb2580db6496816db6c900b24b2580db4496806d86c900b6cb2580590496800db6d800b6db0400db6d800;
   0x2492480002492000ffffff806db6db0006c00001db6492816da6490192472580492492806d86490036c72580490492802486490016db6800ffff82007fffc00;
   0x1ffffff802492490002c00001df6411812ca6018092462180080411806f8601801606218049041180040601801ffff800ffff8001ff97c00;
   0x4924920004924801b6db6d80db6db68005b0000036cb25805b0592802d864b00160b25805b0592802d864b00360b2580490592806db6db00b6cb4080db25860;
   0x12492490012492003ffff9fc16db25b0002c000001b07b3802c065b00160325800907b3802d065b00160325800907b38004065b00fed97f00f92780c12002c00;
   0x3ffff87c124900900020000001f0787000403cf0012030780080787000c03cf0012030780080787000003cf00fe003f00c001c0c10000410;
   0x24924924024924805b6db25a2d92496c005900000b6c325805b0596006d82cb00b2c325805b0596006d82cb00b6c325805b0596006c925b01965965b04924920;
   0x12492490012492407fbe497c164924b0002c80000db4196006d82cb00b2c32400c94196006d82cb00b6c32400db4196006d82cb00b2cb2c00c92480c10490580;
   0x7f90083e12000010002410000db40920025824900b2412400490092002482490092412400492092002482480038431c01c820c0018000c00;
   0x2492592402592c90d92c925b2c92592c005b20000b6c16c00db65b6016d82db00b6c16c00db65b6016d82db00b6c16c005b25b6002c92580192496080c925920;
   0x12592c90093c9a407c92593e12592c94002c00000db64b6012d80d900b6416c005b24b6016da0d900b6c16c005b24b6002d80d9001e493c00c9258001e492c90;
   0x180c00003018007c10083e10180c10002404000c920fc012400f8009201fc000900fc0124a0f8009241fc004920fc002480f8001c083c00c101c001e083c10;
   0x2492492402592c90d924925b2c92492c005b04001b6596c80db24b6012d90d900b6096c82db24b6012db0d900b6c96c805b24b6002cb65801b2cb6000db65920;
   0x12492490012492407c92493e164924b0002d000025b20b6012d90d80036096c805b00b6012d90d80136196c805b20b6012d90d8001e597c00f9678001fc97c80;
   0x10000000080007c02403c1201001000258000249009201249048003201240049009201241048001209240009009200240048001e017800f8078001fc17c00;
   0x24924924004924805b24925a2c92496c005b00801b6d96c825b01b6416d92db00b6c96c824909b6412492db0012096c824901b6402d92d801b65b4000c925920;
   0x12492490002492007c92497c164924b00065804025b01b6006d82da0036c16c005b01b6012492da0012016c000901b6002482da0016496000f92d80002492080;
   0xf60000004b0003f06607c120f60900121800005b009200248048001201240049009200240048001201240009009200240048000e4970007d3c80000080000;
   0x2496c924004b64001b25b2d82d96c96c02c300100320024001b0090002400480012002400090090002480480012002400090090002db6d800b6db6c024b64920;
   0x12492490002490000f9249f816c925b00301800001b00000024004800120000000100000024004800120000000900000024004800165964025b6c960121825b0;
   0xfc003f012c005900f01800001b000000000000001200000000000000200000001200000001000000200000001e4974000924920001805b0;
   0x2492492000092000096496c02db24b6c060300000120004001b0080002000480012000400090080002400480012000400090080006db6db04924925824964b6c;
   0x120000900000000000101800164000b0030180000130080002000480012000000010080002000480012000000010080002000480016496402496492c12082db6;
   0x100103c00003b00cc003300cc003300cc003300cc003180cc003300cc005b00cc003180cc0006496002002492400082492;
   0x36002032016c005b0096002580c80032016c005b0096006580c80032c16c005b00960024924804924924824904924;
   0x2400000092492000000000000000000000000000012000000000000000000000010000000000000002400000000000000000000002000000080000;
   0x12580000092492400400000000000000003c000001fec0000000000000000000041000000048000001ef8000000000000000000001f000002780000;
   0x92400002db6000016db6db00b2000000080000016db64000b6db00000920000924900000b6c000001b6c00016db6000010000000012000006d800005b00000;
   0x2492000036db0000192db6c02db0000002480000dfedb6000db6d80000490000492480000db0000007ffe0001b65b0000180000000ff0000036000007c80000;
   0x96590000080482406db60000024800005ffc92003ffff8000000000000000000049000001ffff0001b25b8000590000003ff8000038000003c00000;
   0x492480006db6c000124b65b0db6d80002492000016db64005b6db60004924000924920001b6c00002db6d80036cb6c001b6c000005b6c00006c000005b00000;
   0x24920000b6db0000092496c16db6c000124900000f6db2006db6da0002490002492480012db640003ffffc007b65b6002db6000007ffe000000000002000000;
   0x96590000000082416db6c000124900000feff0007c825e0000000000000000097dbf48007ffffe0079249600249200000ffff000010000002480000;
   0x492480016db6c000924965b0db6480012492400016db6000592492000492400092490006db6db0006db6db0036db6c005b6d80000db6d800b6c000001b00000;
   0x124924001b6db60004924b6c024920000924900000bffb2000000080002492000492480036ff6c000ffffff801ffdf8006db600001ff97800096000003c80000;
   0x4100000b65b2000000002400000000092590000012480000000000000490000490080012db24001ffff7f801ffcf800241200001e407c00096000003c80000;
   0x4b2c80016db64000924925b04924800124b64000124924004924920004924000924900005b6d80016db65b0016c96c00c92580002492480012d000001b40000;
   0x1249240009e5900004924964124924000925920000924920000000000024920004924800124924021fec92f801924b8006492800012492c000b6000000c80000;
   0x41000001e1c00000820004004100000867c00000000020000000000000800000820000004104021f0000f80180018000410000010c30400012000000c00000;
   0x496480012cb64000965924b04b2c800124b6400012cb24004924920004b64000965900004b2ca20364924b4032cb2c00492480002492480006c800001b6d800;
   0x124924000965900104924924124924000925b00000965900024924900025920004924820124924221d249278019659c002492000012492c000bfc80000fb7c00;
   0x5b00000000800000000004004100000804900000000000000004000000800000000020004104021c3018180180018000410000018083c0003ec90000d97c00;
   0x4b6480012592412092c92db04964800124964000125924004b2492000492400092c90d804964a2036592cb4036592c00492400002c92580016db60000b6db00;
   0x24920000924900804924b6c124924000924b6000092490012792c900024b6000492496c12492422193c9a5801924b800249200001e493c005b6fb0000df6d00;
   0x124000024000800120124005b0000082c1f8000024000004004000000160000160124005b04021800101c01c243800018000001e587c004b7db0000ffc480;
   0x4924924125b2410092c92db04b6480012c92d80012592400492492000c96c80092c92d804b64a20364924b4016596c00096406c02d92d80092592c001b6c300;
   0x6c924920924900804924b6c024924000b64b6c00092490002492490012492000492496c024924221d25927801f24f80004900be01fc9f800cb2cb0000db6180;
   0x16c924920020000800820124004124001fe4ffc000024000000100000104920000020124000000021e00007801f00f800000007a017c1e000c30c90000ffe180;
   0x2db6db6c024920300924b6db04b6db6016c96db0012492000092490002db6480092410d80492492c364924b4016496000492402c00d92d801b6db2c001b6c16c;
   0x36c924920965900005925b6c06d925901be5b6d800f25f0000492480016d920004b2416c064960b01f24b2f804a2412017086c3201ecb6c008b6c96402dbe1f0;
   0x36c92090097f90000c92592416c927904be1f27801f65fc0000b7000016c924000360020165b24001f07f0f8048001201f087c3003fc17400092c97c00c9e0f0;
   0x6d96c96c36db6c305b2cb6482db65b64b6cb6db6036db6c00016d80002d92580092c92582db6db2036c925b4092492402d96db2006db6cb01b61b6d80cb6d920;
   0x36c924905b2cb6402db65b0036db24924965921b07f6dfe000092000016496c024964820165b6c301fe493f80492c9203fdf7f20036db0400c10cb6010492800;
   0x36492490492c92402db25b00364924904926921e07feffe0000000000164b6c0001c0020164924101fe007f80003c0003ffffe40032c90400403090010492400;
   0x6db6db6036db6d305b6db6006db6db6436db6db60b6db6c00002400002c96d80492c92002db6db2016c125b0012592406db6db2006db6cb00b6d36002c365800;
   0x324924905b65b6402db6db00364925b0792c961007bffb60000000000104b6002492482016db6c30090000500493c92037fffc800165b24001b61b00101b2400;
   0x92492002492480012000000080002000492492000000000000000000000002002492000000000000002400012492400012490400090080010080000].
Definition emoji_rows_34 : list N :=
  [0x180090002c00400012002000180090002c00400016002000080090002c004000004800000000000000000000004000000924924;
   0x480000002000007f804800364120005b0090007d8048003e0120005b0090002d8048003e012000016d80000000000000000000016000000492490;
   0x49000000000000ffc00000ffc00000ffe000007fc00000ffc000007f8000007f800000ffc0000001e580000000000000000000092400000000000;
   0x924900005b6c00002480000ffe492016da24901b6c12480db6492007fc24900b6c12480db6492006d82490002db6000010016000490000016da00004924924;
   0x2492480016db600001200001ffe24901b6c12480db649201fde24900ffc12480db6492006d824900fec12480036db00004900900024800001b6c00002490002;
   0x1249240000000001ffe00001fee00000f9e00001fce00000ffc00000f9c00000fcc00000fac000000f24f0000000490000000000492400000000000;
   0x492492002db6d80002480000db6492016db24901b6c12480c96492016d824900b6c12480db6492016482490016db6000092416402492000036db00004924924;
   0x2492480036db6c0001000001ede24901b6c12480d964920124a24900b7c124805b04920025824900924124800b6db00024920900124900005b6d00002492002;
   0x9249240001000001ffe0480192602400c9609001202048003f8024004900900024804800100024000f6df0000000000000000000492400000000000;
   0x492492016db6db0002c00000db64b2016db25901b6c12480c964b2006d825900b6c124805b04b2002c82590016db6c004924820124924800b6db00024924b24;
   0x124924900b6db6d80036000002d824900360124804904920024024900368124805b04920024824900120124805b6db6002492000092490400492580012492402;
   0x96c82480012000002e0048001600200009001000040048001e002000090010000400480012002000e92497000000000000000000400000000000000;
   0x2492492416db25b0002c000001b0492002c82490016012480090492002c824900160124804b04920024824900b2492580492482c124924300924900024924b24;
   0x124924901b2492d80032000006d82cb00b6c12400490196006582cb00b6c124005b0196006582cb00b2c12400c92496012492436096590500492480012cb2412;
   0x90000480012000002d824900b2c124004900920060824900924124004900920024824900924124004067020004100100020800000c3000000c30000;
   0x24924924364924b4002cb0000db65b6016d82db00b6c16c005b05b6016d82db00b6c16c00db65b6016d82db0012cb24004b2480c124924000965900024924b24;
   0x12592c92192c92580036080016d82d900b6c16c005b24b6002d82d900b6c16c00db64b6006d82d900b6c16c00092490012492400092492400492480012492412;
   0x180c00083018180036080012480d80092416c004920b6002480d80092416c004920b6002480d80012016c00002400000080000000400080010000000480000;
   0x24b2592436592cb4002c06000db64b6012db0d900b6496c805b24b6016db0d900b6c96c805b24b6012d80d900124924004924800125b2490092490c224b64b24;
   0x12592c92192492580036000012db0d800b6096c805b20b6012d90d801b6596c805b20b6012d90d80036096c80092c900125b2400092c924004b6490412592412;
   0x10000080080580016000012d904800360124005b0092002d80480112192400490092012490480012012400002c00000180000000400000016010400080000;
   0x2492c924364b64b4002d800025b01b6416d90da0036896c825b01b6412d90da0136196c825b01b6412d90da0012492000492480012492490092490cb24924b24;
   0x124924901924925800b6800016d90da0036896c025b01b6006d90da0012196c020901b6012490da0012016c00092490002492000082410400412496c02492012;
   0x820000904104800928000024804800120124005b0092002d80480012012c00090092002400480012012c000f24b0003c9e000000000000010006c16016000;
   0x2496d924364b64b40165804005b01b6006d82d900b6c16c005b01b6002482d90012016c004901b6002482d90016db60005b6c900124b24900b24b0582d92d924;
   0x124b64901b25b2d801828020025004800120004000900800020004800120004000900800024004800120004000f3cb0017ff6d80092c12480492582036c96c90;
   0x12000090482c804828000020000000120000000100000000000000120000000100000020000000120000004f3cf2002f92480002c024804005820b6416c00;
   0x492492016c925b00b05800801b0090002400480012002400090090002400480012002400090090002400480036db6c024b2c96012592db64b6db2186d96da00;
   0x4924001b6496d805028004020004800120000000100000000004800120000000900000020004800120000004f24b20124b2490092c16d824b6d920b6cb6c00;
   0x900004803038004000004800120000000000000000004800120000000100000020004800120000000f24f0010082490000c16d80436d820b6c36c00;
   0x120000900305b00205b0096002580c80032016c005b0096002580c80032816c005b0096002580c80016db6402496492c12592db64b6db2186db6da00;
   0x2400002080480012010400410082002080480012010400490082002080480012010400092490010092492000412480492482092492400;
   0x480000000000000000000002000000000000000012000000000000000000000000000000000000000000000000000;
   0x1b6db6c00400000000000000016c800005b6c000004800004924800005b0000000480000036d800000000000000000000120000024800000004800000000000;
   0x2db6db20124000000000000025ffc80006db6000016c00012492400006d80000012480000db6d00000000000000000000090000032400000002400000000000;
   0x25b2492016c80000012000007ff2ff001ffff00001ff80000000000012480000000000000d92d80002c00000000000000000000030000000000000000000000;
   0x5b6d96c16db60000124800005b6db6002db6d80002db4002492480002db60000124920001b65b40005b00000024900000120000024800000124920000024000;
   0x2db6cb60b6db0000092400000dfed80036db6c00036d80012492400016d80000092490002d92d80016d80000012480000090000032000000092490000092000;
   0x3ffe4920b6db0000092400000fbef0003fcbfc000fffc00000000000b24b2000000000003d92dc0012480000000000000080000032000000000000000000000;
   0x5b6db6c16db6c000924900000b6db2006d92db0006db60004924800b6db6d800124924005b6db6006db60000024920000960000025800000124924000924900;
   0x6db6cb60b6db0000492480000ffff80010410c000b64a00024920005bfff6000492492002db6d800b6db0000092490006da0000036c00000492492000492400;
   0x7fffc920ffff8000492480000ffff800000000000924a00004900000bfff20000000000025ffc80092490000000000000cb000001a400000000000000000000;
   0xdb6d96c16db6c00092d900001b6db2012492490006db6000492480016db6c00092492480092490016cb6c00012492000096000002c800000924924800924900;
   0x16d96cb60b64b4000496c80002db25800000000000964b0016492c000b6db40004924920004924800b24b00000924900005b0000016400000492492000492480;
   0x124924820f249c000497c800004924800000000000924b001249240009249600000000000000000008209000000000000048000001e400000000000000000000;
   0xdb6db6416db6c00096db20001b6db6002492480006db6000db6d80016db6c32092492480096490006492800012cb24000b6000000d920000924924804924920;
   0x124b24b61965940004b3c800024924800124924000b2cb00124b24001965960104924920004924800965900000965900005b000001edb4000492492002492480;
   0x1249249219659c000493c800024924800124924000f2ce00124924001965960100100800000820000861900000000000007fe40001ffbe000010080000080000;
   0xdb6d92416db6c00096db20001b6db4016db6db0006db6000db6d86816db6c32092c924800924900024920000125924000b6db0000db6c00092c924804925920;
   0x16492db6192c94000492c80002c92580092496480032480016492cb0192c960124925924004924800124800000924900005b6d00016db6000492592002592c90;
   0x1e493c921d249c0004924b0003c9258009349e48001058001e493c901d249e0100100800000120000024000000024000025ffc80007ff6000010080000180c00;
   0xdb6db6c16db6c00096d96c001b6db0016db6db00064b6000db6d96c16db6c32092492480096c900025b20100125924005b6db0000db65800924924804924920;
   0x165b6db61b2cb40000924b0002cb65800924924800925900165b6db61b2cb60124924924004b6480012c8058009249000659058001ef82800492492002492480;
   0x1fc97c920f24f8000792ff8001f92f8009048040009049001fc97c920f24fe00000240000001000000000078001018001841808001fff2400002400000010000;
   0xdb6db6c16db6c801b6db6c001b6db00024b6480016cb2400db6d96c16db6db60924924800924900004900b6016c96000cb6cb6000db61800924924800924900;
   0x6496db60b2c92400d92d96000c925800124924001b6c900064920b60b2430c824924924004124000124005a00b25f001259698001fff2d80492492000492480;
   0x2492492092493c82fd2f9f000f92f800124920000b64900004900900b24b04800066000024004800f00701801f24f001059409001edf0f800066000000f6000;
   0x2d925b6c16db2db65b6db6d805b6db60005b6c80016c924004b6486c16db6c300925b24805b24b6016496c30036cb6c008b2c96c16db61b00925b2480096c900;
   0x36496c001b6492c825f2d92c07fb6fe0002db20001b24900125b24300b2cb20004924920024104805f0cfe4005be596012492df0186590400492492000492400;
   0x36496c005b24924824b3c93e07fb7fe00004900001924b00001800100b2cb20000000000000180007f3cfe40079e482008492580182490000000000000000000;
   0x6db6db0036db6db65b6db61b05b6db60000b60000365b6c02496492036db6c30092492480492c92036db6d800b6db2400c82490010592c000924924800124800;
   0x36db6c005b2c92c824b64b2406ff7ff0000080000192db00124924304b2cb240040240200249e4807ffffe4004b6d82006cb2500182590000402402000010000;
   0x36cb6c005b2492c834924b2007ffffe00000000000825900000800104b6db200000000000003c0007ffffe000492482003d82400182c10000000000000000000;
   0x24924900124924905924960004b6db6000000000000490002492482012492410000000000492c92036db6c800124924000b00800100820000000000000000000].
Definition emoji_rows_35 : list N :=
  [0x10002000080090000000400010002000080090000400400000002000080090000010000000000000000000000080000000000000012000000490000;
   0xb000007fc1fc007f01f2000000f8003e01fc007f01f2003e80f8000001fc007f01f20000b60000000004000000000000800000000000000be0000004b0000;
   0x16800017fe2db00b6c36d804925b6016d82db00ffc36d805b45b6002482db00b6c36d80016d800000000b00024000000b6c00002592492016d800005b6c000;
   0x5b00001ffe36d80db65b6802486db00ffc36d80ffe5b6806d86db0092436d80ffe5b68005b6c000024004000b6000002db6000016c800005b6c00002db6000;
   0x7900001ffe3e780ffe7f7800007ff01ffe3e780ffc7f780ffc7ff000003e780ffc7f7800792c00007f824800ffc0000249200003ff800007fff000024b2000;
   0xb600001fdf6db01b6cb6d804925b6816db6db00fecb6d80db65b6802486db00b6cb6d800b6db0002db65b6036db00005b6d00006db64920b6db0000db6d800;
   0x4900001f6e32580db6592812486cb0192632580fbc592806d86cb0092432580c94592800db6d00036db24805b6d00006db60000b6db2000db6d80006db6800;
   0x4800001b7e72580d964928020064901926725807b0492802586490012072580010492800f92f8003fff04007fff800024920000ffff2000ff27800024b2000;
   0x3600001edb6db01b6cb6d804925b68124b6db00b6cb6d805b05b6802486db00124b6d801b6db0006db68a00b6db00005b6d80016db64921b6db4000db6d800;
   0x1a00001b6e32580db64b28024864901924325805b04b2806d864900120325804904b2802db6d800b6db0400db6d80002db28001b6db2000c92580016db6c00;
   0x18000003e0725804906938004064900120725805f0693802486490012072580080693807ffffe00ffcf8080d9258000af96c001f24f2000492480016cb6400;
   0x36000002d86db0016036d800b05b6802c06db0036036d801b05b6802c06db0016036d80db6db6016db6c10192496000db6d80036db6cb21b6db6000db6d800;
   0x5900000160325800b0596002402cb00120325801b0596002c02cb001203258009059600ec925f01b24b4180492482012492c000924924004b2480012c9ec00;
   0x19000001e4324004901920020824b00124324005b01920024824b0012432400490192007c925f019249c18049248201249240009a692400492480013c3e400;
   0x36400016d82db00b6c36d00db65b6006582db00b6c36d00db65b6016d82db00b6c36d005b6db6016db6c16196596000db6d80036db6cb21b6db6000db2c800;
   0x5b20000b6c16c00db65b6006d82db00b6c16c00db65b6016d82db00b6c16c00db65b6002c92580196594080c924800124b24001924b2400c92580012c96402;
   0x4b00000b6c124005b2492002d82490036012400c96492002482490092412400490492003c9258019249c080c10192012492c001924b2400cb6580012492c02;
   0x36080016da2d900b6c16c805b24b6012d82d900b6c16c80db64b6016d82d900b6c16c801b6db0016db6c001b2cb6480db6d80436db6cb21b6db4000db6d804;
   0x1b0400092496c80c924b6002480d90092096c80db24b6012da0d900b6496c805b24b6002c925801b2494000cb6592016492c82196cb2400d92d80016492c12;
   0xb0000192096c800920b4002480d80012096c804920b4012490d80012096c804900b4003cb67800f24bc000e9679201e5b3c821d2cf2400f9248001e5b3c02;
   0x36010012d90d801b6996c805b21b6412d90d801b6996c825b21b6412d90d80036896c801b6db0016db6c001b6db6400db6d90436db6cb20b24924b0db6d824;
   0x5b0000136996c825b01b6412d90d80036816c820901b6412490d80012016c800901b6402d92d801b24b4000d92d92016c96c861b25b2400592492416c96c10;
   0x4b0000012092402490092002480480012012402090092012410480012012400090092000c927800fa4f800041219201e497c960824b2000d9249241e497c10;
   0xb2c00016d92db00b6c96c825b01b6406d92db0012096c824901b6412492db0012016c800b6db0016db6c00092c90400cb6586c165964925b6db2d80db65820;
   0xc30000036016c005b0096002480c80012016c00090096002400c80012016c00090096000cb67800bed920004120920064920301b25b2482d92492406db2030;
   0x2430000012000400090080000000480000000400090080002000480012000400090080002ebe7800bfcb64000160000060920105b20b6002d924124127f2420;
   0x582c00002500480012006c00090090002000480012006c00090090002480480012006c005b6db6012d96db0492c96d82d925828b6cb6c905b6db2d82db6db20;
   0x60300000120004001b0090000000480012000400090090002000480012000400090090002c927800925925824964b6c16db64105b05b6002d92492436596c20;
   0x6030000012000000010000000000480000000000010000002000480012000000010000002e927800004024800100b6c067fe0105b05b6002d92412012492420;
   0x502c00402100480012004c00010090002000480012004c00090090002480480012004c004b6db20324b2496492c96db2cb6d928b6cb6c005b2db6d82db6db20;
   0x203e002032016c001b009c003180c80032016c005b009c002580c80032016c005b009c002c92780492c924824904b6c165b64105b65b6002492492036cb6c20;
   0x12000012010400010080002080480012010400410080002080480012010400410080000400400000000000000000002492010492492002000000012412400;
   0x100000005900000000000020820000020000000000000000b60000000000000000000000900000020000000000000000000000000000000000000;
   0x5b0000016d800000100000124900000b2000000012000002db6000000000000000000000d80000434000000000000000000000002400000012000;
   0x17ffe0000bfff00000fe0000000000000920000000ff400006cb6000000000000010000003d000007f0000000000000000000000017f80000092000;
   0x92000016db6db0016db6c00016d80012492400016d800000b6db0002db6d80002c00000016d800005b0000036c00000012480000010000016db60000b6db00;
   0x4900000b7fb24001b6db40005b6c000924920001b6c00000db6d80036c96c000360000001ffc00006c000005b00000004924000004900005b6db6000db6d80;
   0x492000017ffe0007ffffe0007ffc00000000000092400003ffff80036c96c000924000007ffc000024000003900000000000000004900007ffffe002492480;
   0x492480000db6d80036db6c000b6da00124924004b6db20005b6db6002db6d80036db00000b6db00004800000320000004924920005b6c000b6db6c005b6db60;
   0x249200001fdbf000592596000db6c00092490006fb6fb0006db6db0032492c005b6c00000ffff80010c000001b00000024924800024920005b6db6006db6da0;
   0x249200000ffff000400002000fb2e000800100027fff90007fffff0037ffec00492480000ffff8009ac000001b0000000000000002492000ffffff002492490;
   0x492c80000db6d800924924800b6db00124924005b6db6000db6db6002db6d800b6db00001b6db0000db0000036c00000492492000db6d801b6db6d80db6db60;
   0x24b6400017fb6c00000000000db6c00092490000db6d80016db6db0016d96800d92d80003fb2f80002d00000194000002492490012492000db6db6816db65b0;
   0x24be40001fd97c000000000004b6400092490000c9258001fff27f001e497800492480003492480002c00000190000000002400012492003ffff9fc12592590;
   0x5b6d80002db6d800924924000b6db0016db6c001b6db6012db6db6c02db6d800b6db00001b6db4000db0000016c00000492592002db6d805b6db6da2db6db6c;
   0x12db6c00016db6c00492492000db6c001b6db4000db6da2016c925b00164b2c00492580002492480006c000001b2400012492490012492402db6596c16c924b0;
   0x24be400012cb2c000924920007b6e001965940004f3c8201e4924b801acb2c004d3480002492480006c800000f6480000492480012492403f9e493c16492490;
   0x5b6d80002db6d80096db6c000b6db0016db6c101b6db6032db6db6c02db6d800b6db00001b6db40005b6c00016db60025b6db2406db6db05b6db6db2db6db6c;
   0x12db6400016db6c00db6db60005b6c001b6db4580db6da2036592cb4012492c00492480003c92580006db60000f6db0012592c90092c92406c92592c16592cb0;
   0x1249640001e593c004b24d20006124001d2c9c480c965c201e592cbc01a493c00092400003c92580013cb60000d7f90002592c80093c9a407c92593e12592c90;
   0x5b6cb0002db6d801b6db6d80032db0016db6cb61b6db6032db6db6c02db6d80016d800001b6db4002db6d80016db60025b6db6406db6db05b6db6db2db6db6c;
   0x12db2d80016db6c00db6c96000492c001b6db4d80db6da2036592cb40165b6c000b6402003cb67800b6db60000b6c30012592c90012492406c92492c16592cb4;
   0x490f8001e597c00482412000402c001f2cbc480fbe7c201e4924bc01e597800092403403f92f800821920000ffc30002492480012492407c92493e12492490;
   0x5b6db6002db6d800b2592d801b2590016db6db61b6db6032db6db6c02db6d80006d805b01b6db0010c30d80016db2c025b6db2402db6d805b6db6db2db6db6c;
   0x16db6da0016db6800192c90000d924800f6db0d80db6d924364924b4016496800012007c00f92d80186492c001ffe16012492490012492002c92496c164924b0;
   0x1fc9fdf0016482000092490000cb248008241048041219241e4924f8012482000012003c00792e00192cd24000ffe16c00492480012492003e92497c12492490;
   0x2db6db6800db6d80016db64001b6c900025b20b60b6db0d82db6db6c02c925900b24b01801b6db00105b69b0036db0d824b6db24005b6c805b6db6d82db6db6c;
   0x16dbecb003edb7c000b6db0002d92480092c90580db6582036cb65b00b2082402f80782003db6d80192492f804b2d960124b64900025b2002d96c96c164b64b0;
   0x12ebe4be03fdbfc00016d80002d92480003c0000249658201fc925f8000080403f987e2003d9248008009af00812580000492400002492000f9249f812492490;
   0x2db6db2c06db6db0002db00001b25b60125b24305b6db6402db6db6c024b64805b2cb64005b6d92016492db0186d90002496d920001b6c000b6db6d82db6db6c;
   0x325b25160ffdbfe00016c80002db6d80092c92002d96592016c925b0012582407fbeff6006db6c200805b20028360800124924900004900000b24b0016c925b0;
   0x3259251207ffffe00002400002c96d80000c0000249259201e4100f0000180003fffff0002492000030632003c32180000010000000080000010080012010090;
   0x6db6db2006db6db0000000000196db00124924305b6db6400c000020024b64805b6db6c005b6d96002d82c00182c34000400002000000000000000000c000020;
   0x12492410012492400000000000012000000000002492482000000000000080002492492002492480002010000012080000000000000000000000000000000000].
Definition emoji_rows_36 : list N :=
  [0x400400000002000080090000400400010002000000090000400400000080000000000000000000000000000000000000080000002400000000000000000000;
   0x5b01b6002482db00b6c16c005f01b6002d82db0012016c005b01b60000b60000000004000000000005900000124924800b6c00000db6000016db6d800100000;
   0x6d82db0092436d80ffe5b6007f82db00b6c36d804905b6007f82db0002db0000000002000080000016d80000092492402db6000016db00000b6db6c00580000;
   0x1ffe3ff000003ff80ffe7ff00ffc3ff00ffc3ff800007ff007fc3ff0003c9e0000100020007f00000124800000fe000003ffe0000165900000b6492402db0000;
   0xdb65b6812486db01b6cb6d80ffe5b6816d86db00924b6d80db65b68005b6c00006d82d801b6c00002db6000036d924905b6d80006db6800036db65b0db6c000;
   0x16da6db0092436d80f965b680fdc6db00b6c36d804905b6807dc6db0006db60001b6c12402db6000036db00005b6c00406db68000b6db00001b6d92c16db6800;
   0x124a6cb0000072581c0679380fdc6cb0092472580000793802086cb000749e0003ffe12003fff000012490000fffe0000ffff8000965900003fff82416db6c00;
   0xdb65b6812586db01b24b6d80db45b6806d86db00b24b6d804905b6800db6d800b6db04005b6d80006db60001b6db2490db6d80016db6c000b6db65b0db6d800;
   0x124a6db0092436d80c965b6806d86db0012036d804905b6802486db0016db68005b6d82006db6c000b6db0000db6d90416db6c000b6db00005b6d92c16db6800;
   0x124a65900000725808826b3806f865900120725800806b380040659001ffff800ffff8000ffffc00096c90003ff7f9001e493c001b65b6000ffff9240ffff800;
   0x5b05b6802c86db00120b6d805b05b6802d86db00120b6d804905b6806db6db00b6db4080db6d86016db6c001b6db2490db6d80036db6c000b6db65b0db6d800;
   0x2c06db0016036d800805b6802d06db0016036d800905b6800406db00f6db6f00db6d80c12492c001b6db4002db6d92416db6c001b6db4000db6d92c16db6c00;
   0x403cf0012032780000797000c03cb0012032780000797000003cb00fe497f00e925c0c104904101b24b40024925920124b240019e5d4000c924c241e493c00;
   0x5b05b6006582db00b2c36d805b05b6006d82db00b2c36d805b05b6006db6db01b6db65b0cb2c92016db6c005b6db2490db6d80016cb6c001b6db64b0db6d800;
   0x6582db00b2c36d004941b6006d82db00b6c36d00db41b6006d82db00b6db6c00db6d80c12492d801b6db4002db6d92416db6c001be5f4000db6d92416db6c00;
   0x25824900b241240049049200248249009241240049249200248249003acb3c00cf3dc0018410c00196594003c9259201e493c0019e594000cf3cd241e4b2c00;
   0xdb65b6016d86db00b6c36d80db65b6016d86db00b6c36d805b25b6002db6d801b6db6080c96592016db6c005b6db2490db6d800165b2c021b6db64b0db6d800;
   0x2d86d900b6416d805b04b6016da6d900b6416d805b24b6002d86d90016db6c00db6d80016db6c901b6dbc402db6d92416db6c001b6dbc090db6db6c16db6c00;
   0x2400f9001201fc800904fe0124a0f9009241fc804904fe002480f9001e493c00c925c001e5b3c101f24bc403cb679201fc97c001f24bc080c925f241e493c00;
   0x5b2cb6812d90d900b6096c82db2cb6812d90d900b6c96c805b2cb6802db6d801b6db6000db6d92016db6c821b6db2490db6d92416db6c161b6db6db0db6d800;
   0x12d90d80036096c805b00b6012d90d80036096c805b00b6012d90d80016db6c00db6d80016db6c801b6db4c32db6d924065924921b6db4080db6db6c16db6c00;
   0x1249048003201248049009241241048001201248009009240240048001f497800f92f8001fc97c000f24f8c33f92f920024800020f24f8080f92fd241fc97c00;
   0x25b01b6416d92db00b6c96c824909b6412492db0012096c824901b6402db6d801b6db0000cb6592016db6cb61b6cb2492db6db6c16db6c101b6db6db0db6d900;
   0x6d92da0036c16c005b01b6012492da0012016c000901b6402482da0016596000fb6d800025b20800b2c30580db6c80436c924920b2cb0100db65b6c065b2580;
   0x2480480012012400490092002400480012016c0009009200240048000e5970007f7c80000080000032430582c92d80036c92090096f90000492592402592590;
   0x1b0094002400c80012006c00090094002480c80012006c00090094002db6d800b6db6c024b64920165b6c305b2db6486d96c96c16db6c301b2cb6d82db65b6c;
   0x2000480012006c00000090002400480012006c000900900024004800165964025b6c960121825b00b24b2186d92da0036c924901b7db6402d965b0036c92596;
   0x48000000040000008000200048001200040001008000200048001e4974000924920001805b00b24b0186c82d80036c92090492c92402d925b0036c92492;
   0x90090002000480012006c00090090002400480012006c00090090006db6db04924925824964b6c16db6c305b65b6006d96cb6c36db6d305b6db6006db6db6c;
   0x2000480012004c00010080002000480012004c00010080002000480016496402496492c12082db6082db2186d86da00364924905b6db6402db6db00365925b0;
   0x3300cc003300cc003b00cc003180cc003300cc005b00cc003180cc0006496002002492400082492096db0186d82d80010492490492492402db2db0036492490;
   0x5b0096002580c80032016c005b0096006580c80032c16c005b00960024924804924924824904924124924104924920024924920124924004924920024924920;
   0x12000000000000000000000010000000000000002400000000000000000000002000000080000000000000000000000000000000000000000000002c00400;
   0x1fec0000008000000000000041000000048000001ef8000000000000000000001f000002780000000000000000000000012000000080000006000007f80f80;
   0xb6db00000fe0000924900000b6c000001b6c00016db6000010000000012000006d800005b4000000092400000000000036da00001b6c00002d80000ffe5b60;
   0xdb6d80003ff0000492480000db0000006db60001b65b0000180000000db0000036000003d800000024900000000000005b6c00002db600003680001ffe6db0;
   0x3ffff80003ff800000000000049000001ffff0001b25b8000590000003ff800001a000003e80000000000000002400003ffff800124920000fe00001ffe7ff0;
   0x5b6db60007ffc000924920001b6c00002db6d80036cb6c001b6c000005b6c00006d800005b0000002492480002db00005b6db6002db6d80006d80000fbe5b68;
   0x6db6da0007ffe002492480012db6400036db6c007b65b6002db6000006db6000006000002100000012492400036d80006db6db0036db6c0001600001ede6db0;
   0x7c825e0007ffe000000000097dbf48007ffffe0079249600249200000ffff000090000002480000000000000092490007fffff001249240000000001ffe6c90;
   0x592492000fb6e00092490006db6db0006db6db0036db6c005b6d80000db6d800b6c000001b0000002492490016db6000db6db6806db6db0006c00000db65b68;
   0x8000edb6000492480036ff6c000b6db6d801ffff8006db6000016db68000b6000003d800000924924000b6db0016db6db00b6db6d8001600001eda6db0;
   0xfff6000480080012db2c000ffff7f801ffdf800249200001fd97800096000003c8000000001000009249001ffffff0092492480012000003f865b0;
   0x492492000db6c001b6db4000db6d80016db6db0016db6c00db6d80002db6d80016d000001b4000012496c90016db6c02db6db6c16db6db0002c000001b05b68;
   0x6db6000fb6dc001edb6c021b6db6d801b6db0006db6800016db6c000b6000000d800000924b64801b6db0036db6db61b6db6d80036000002c02db0;
   0x49240000fffe001df7dc001efbec021f6492f801964b8002492000012cb2c00092000000c9200000249200009249003fff64fe092492480012000002c824b0;
   0x4b6db2000fb6f001b6db6000df7da2036db6db4036db6c00db6d80002db6d80016c800001b6d80012db6d900b6db6c06db6db6c36db6db4002d90000db65b60;
   0x6db6db0007dbe001df7dc2016db6c221b6db6d801b6db0006db6000016db6c000bfc80000fb7c00096db6c805b6db60b6db6db61b6db6d80036580016d82db0;
   0x1efb6fb0007ffe001fffdc201efbfc021d3c9a78019249800249200001e593c000bec90000d97c00013c9e4004b25920fe592cbe093c9e480032080006d82490;
   0xdb6df68005b6c001f6dbed80db6da2036db6db4036db6c005b6c00002db6d80016db60000b6db0012db6d900b6db6d06db6db6c36db6db4002c04000db64b60;
   0x16fb6db00024b6001fb6dd6c1edb7c221b6db6d801b6db0002db6000016db6c005b6fb0000df6d000b7dbec805b6db60b6db6db61b7dbed800360800124b4d90;
   0x17cb65b0006016001ffffd241fff7c021d2c927801f6cb80025b200001e597c004b7db0000ffc480012c924004925920fe592cbe092c924800160000124b0d90;
   0xd92c96800d96c801f6dbed80fb6fa2036db6db4016db6c001b6c06c02db6d80092592c001b6c30012db6d90036db6c06db6db6c36db6db4002d820025b29b6c;
   0x64be4b0016492000fb6f96c1fdbfc221b6db6d801b6db00005b00be017dbe800cb2cb0000db6180096db6c801b6db0036db6db61b6db6d80036010012d90d80;
   0x2cbe580017c92000fbef9241fff7c021f24927801f24f000049007a017c9e000c30c90000ffe18001249240009249003e4924fe092492480016000012490480;
   0x1b6db0002db64800b6db0d80cb6592c36db6db40165b60004b6402c00db6d80196db2c001b6c16c12db6d90016db6806db6db6c36db6db40165804025b01b64;
   0xdb6d80016d920004b6416c065b60b01b6db6d804a2c12017086c3201edb6c008b6c96402dbe1f0096db64800b6db0036db6db61b6db6d800b2c00002d80d80;
   0x5ffc00016c924000360020165b24001f27f2f8048001201f087c3003fc97400092c97c00c9e0f00027f2000097e9001fcfe5f80927f2480082800003700480;
   0x36da0002d92580092c92582db6db2036db6db4092492402d96db2006db6cb01b61b6d80cb6d920125b6c90006db6000db6db6836db6db00305800001b00900;
   0x1b6c00016496c02496482016596c301b6db6d80492c9203fdf7f20036db0400c10cb6010492800092db2480016d80016db6db01b6db6d80582800002400480;
   0xb6000016db6c0001c0020164924101fe497f80003c0003fffffc0032c90400403090010492400000490000012480000d92d80092492480602000402000480;
   0x2c00002db6d80492c92002db6db2016c925b0012592406db6db6006db6cb00b6d36002c36580012492090000590000012d80016c925b00305800801b00900;
   0x10db6002492482016db6c30080000500493c92037fffda00165b24001b61b00101b2400000000000000000000000000080000400183c00403180c80;
   0x80000000002002492000000000000002400012492480012490400090080010080000000000000000000000000000000000000002400002080480].
Definition emoji_rows_37 : list N :=
  [0x1800b0002c005800120160000800b0002c005800004800000000000000000000004000000924924005900000024800000924924000000000000000000000000;
   0x7d83fb003601fc005b01fe002403fb003e01fc00016d80000000000000000000016000000492490007f800000b6c000024924920020000000000000000b6000;
   0x7fc3ff00ffc3ff007f83ff000003ff00ffc3ff0001e58000000000000040000009240000048000001ffc00000b24000024924920020000000000000007ffc80;
   0xdb67ff806d87ff00b6c3ff804907ff806d87ff0002db60000160160005f0000016da00005fe492403ffe0000b6db00005b6db6c02db0000002480000db6db60;
   0x1fde7ff80b6c7ff80db67ff802487ff80fec7ff800b6db00007f009001ff800001b6c00003ff800207fff00005b6d80002ffecb60b6db0000092400006ff6490;
   0x1fce7ff80fec7ff80f9c7ff800007ff80fac7ff800f24f0001ffe49003fff0000492400007ffe0000ffff80004b2480003ffe4120b6db0000092400000dffd00;
   0xc967b7806d86db00b6cf6d804907b7816486db0016db60005fff16407ffe000036db0000fffc92417fffc000b6db00007fff96c16db6c000124900000b6db20;
   0x124a6db80b6c7ed804907b7802486db809247ed800b6db0007fff0900ffff00005b6d0001fffe0020ffdfc000db6d80007fffcb61b6db0000492480000fb7f80;
   0x12026ff801207ff804907ff802406ff801007ff800f6df0007fff8000ffff800049248001ffff0001ffdfc000cb2480007fffc120bfff8000492480000ffff80;
   0xc967b7806d86db00364f6d804907b7802c86db0016db6c00ffff8201fff7c800b6db0003ff6fb241edb7c001b6db6000ffffb6c17fffc000925900001f6db20;
   0x2406db8036076f804907b7802486db8012076f805b6dbe01ffffc001f6dbc400dfed8003fdbfc021b6dbc002db6d8001ffffcb60ffdfc000496c80001ffef80;
   0x407ff801607ff800907ff800407ff801207ff80ffffff01ffffc0019001c000ffefc003edbf8001befbc000c92dc001ffffc121ffdfc0004bfd80001ffef80;
   0x907b7802c87db0016036f804907b7802487db00bedb7d80db6d82c16db6c301b6db6002db6db2416db6c001b6db6000db6dd641edb7c000b6db60001b6dbe0;
   0x6582db00b6c36d005b05b6006582db00b2c36d00ff6dbe01edb7c36196596500db6dc0036df6c121b6db6000df3cc0016db6c821f6dbc0005f7d80003db6d80;
   0x6082590092416c004900b2002482590092416c007fefbe01efbfc1019659c001df7dc0037df7c001f7fbc001df3cc001efbec021fefbc0005f7f80003df7d80;
   0x5b25b6016d82db00b6c36d80db65b6016d82db003edb7c00df7dc0c1ec92c001b6db6003db6db241edb7c001b6db6010df7df6c1edb6c000b6db20001b6db60;
   0x2d86db00b6c36d805b25b6006d86db00b6c36d801b6dbc01edb7c001f2c9e401db6dc003edb7c121f6dbc001cb65c041edb6c921f6dbe0005b6d80003db6d80;
   0x2486d90092416d804924b6002486d90012016d801f7db801edf7c001f7db8081fbefc003eff7c001ffffc001ffffc001edf7c921f7dbc0005bec80003dbef80;
   0x5b24b6816db6d900b6c96d805b24b6812d86d9003edb7c00db6dc001edb7c901f6dbec23db6fb241fdb7c001f6dbe0b0db6df6c1edb7c000b6db60001f6dbc0;
   0x12d90d900b6096c805b2cb6812d90d90036096c801f6db801edb7c001f6dbe400fb6fd043edbfc121f6db6480fb6fc041edb7db61f6dbc0004b6cb0003fb6f80;
   0x2d804800120924804900928024904800120924801f7ff801ffffc001ffdfc001fbefd043fdbf8000f2492481fbefc001ffffc921ffffc0000f6cf8003ffef80;
   0x25b01b6c12d90da0036096c825b01b6c12d90da001edb7c00fb6f8001fdb7c901f6dfccb3fb6fb2416d924921f6dfc180fb6fb6c1fdb7c000b6db6c001f6df80;
   0x6d90da0012196c820901b6412490da0012016c801f6db801fdbfc000f2db0400fb6f96c16d960121b6492480fb6f8241fdbfdb61f6db2000db6db6003fb6f80;
   0x2d804800120124000900920024004800120124000f3cf000ffff800003e00000c3e186c165960001b6492480e3e5820065f3c920f2c92400ff7fde000cbe780;
   0x5b01b6002482db0012016c004901b6002482db0016db6000db6c900125b24900b6db0582db6d92436cb65b60b6db0400db65b6c16db2db41b6db6d801b6db00;
   0x2000c80012006c00090094002400c80012006c000f3cb0016ff6d80092c124804b6582036596c905b6492482cbed82016496c921b6496d82db6d96c03fb6f80;
   0x480012004c00010090002000480012004c004f3cf2002f92480002c024804125820b6496c005b24804824be482016492c001b24924c25f7c93c03fb6fc0;
   0x90094002400c80012006c00090094002400c800b6db6c024b2c96012592db64b6db2186d96da0036db65b05b6db6402db6db0036db6db65b6db61b05b6db60;
   0x480012004c00010090002000480012004c004f24b20124b2490092c16d824b6d920b6cb6c005b2492482d96db2036db6c005b2c92c824b64b2c07fb7ff0;
   0x480012004c00010080002000480012004c000f24f0010082490000c16d80436d820b6c36c00492492482492492036cb6c005b2492c8249e4b2407ff7fe0;
   0x5b0096002580c80032816c005b0096002580c80016db6402496492c12592db64b6db2186db6da00325b6db05b6db6406db6db0036db6db05b6db61805b6db60;
   0x2080480012010400490082002080480012010400092490010092492000412480492482092492400402492402492492012492400492492402492492002492480;
   0x2000000000000000012000000000000000000000000000002000000000000000000000000000000000000000000000010002000080090000000400;
   0x4924800005b00000005b0000036d8000000000000000000001e0000027800000004800000000000000b6000000590000016000006d82fb00b6c1fc004901f60;
   0x12492400006d8000001ff80000db6d000000000000024000007f000003fc00000002400000000000006ff6000016d800001f00000b6c3ff80db67ff002483ff0;
   0x124800000ffff0000d92d80002c00000007f000007f000003fc00000000000000000000007ffe0000124800007f80000ffc3ff80ffe7ff800007ff8;
   0x2492480002db600001ffff8001b65b40005b0000003ffc00003e000002f80000012492000016d80007ffffa0016db60000fe800016db7ff01b6cbff804927f7c;
   0x12492400016d800001ffffc002d92d80016d8000003ffe00004b0000036c000000924900001b6c0007ffffe001b6db00005b00001b6c7ef80d967f7812487ff8;
   0xb24b20007ffffe003d92dc00124800000ffff00004800000320000000000000005b6c0007ffffe004924920004f00001b2e7ef80c967f7800007ff8;
   0x4924800b6db6d800fffffe005b6db6006db6000017fff0000960000025800000124924000b6db0017fffff00b6db6c00036000016db6db01b6cf6d805925b78;
   0x24920005bfff6000fffffe002db6d800b6db00001ffff0006da0000036c00000492492000db6d801ffffff805b6db60005800001b6c76d80c967b7812486db8;
   0x4900000bfff2000ffffff003ffff80092c900001ffff8000f9000001ec00000000000000db6d801ffffff80492492000080000096477f804927f7800407fb8;
   0x492480016db6c001ffff7f801ffdf8016db6c0001fdb7c000b6000002d800000924924801b6db001ffffff01b6db6d80036000002d86db00360f6d804907b78;
   0x124924000b6db0003fffdbfc03ff6f800b6db00001b6db8000db0000016c00000492592002db6d807ffffffc0db6db68001b0000016076f800b07b7800c07df0;
   0x12002400092482003fffdbfc03fb6f800b6db00001befb8000c8000001ec00000012f80002db6d807ffffffe04b6db20000b000001203ff800807ff000407ff0;
   0x4924800124924321f6db6f801b6dbc006db6800036db6c000b6000000db6000096db64805b6db603fff6dfe1b6db6d80036000006d82db00b6c36d805905b60;
   0x12492400096592013fb6db7c03df7d800b6db00001befbc000db000001edb40005b6db2006db6db07fffb6fe2db6db6c005b20000b6c36d00db45b6006582db0;
   0x10410400086182013fbedf7c03df7f800befb00001fffb8000ffe40001ffbe0001bedf8006fb7db07fffbeff25bedf64000920000b24325004905b20025825b0;
   0x4924868124924321f7dbef801b6dbc006db600003edb7c000b6db0000db6c000b7dbec80db6db60fedb6dbe1b7dbed80036180016d86db00b6c36d805b25b60;
   0x124924b0092492013dbedb7c03db6f80036db00001f6dbc000db6d00016db60005bedb6006db7db07f7dbeff2dbedb6c005b0c000b6416d805b24b6002d86d90;
   0x12082490082412013fbedf7c03ffef80037fa00001f7ff8002dffc80007ff60005bedf6006fb7db07f7dbefe25bedf64000a040009249fc800924fe002404f90;
   0x4b6496c125b24321f6db6f801f6dbc002db601003edb7c005b6db0000db65800b6db6c805b6db60fedb6dbe1b6db6d80036000012db4d900b6496c805b2cb68;
   0x125925b6092c92013db6db7c03fb6f80016d805801f6df800659058001ef828005b6db6002db6d807f6db6ff2db6db6c005b0000136196c805b28b6c12d90d80;
   0x2082092090092003fb7db7c03fbff80006d807801ffff801841808001fff24001b7db8002dbed807f6ff6fe25b7db64004b0000012092480490092402580480;
   0x492496c124925b61f6db6f801f6df00005b00b6016db6800cb6cb6000db6180096db6c801b6db003edb6dbe1b6db6d800b6800016d92db40b6d96c825b01b6c;
   0x24920b6092410c83fb6db7c00cb6580012c005a00b6df001259698001fff2d805b6db2000db6d807f6db6fe2db6db6c00db0000036c16c805b01b6406d92da0;
   0x4900900b24b0483fbffbfc0243e4800f0c701801f7cf001059409001edf0f800bffb0000dffd007feff7fc25bffb2400430000012016c00490096002480c80;
   0x4b6486c16db6c301f6db6f805b2cb6016496c30036db6c009b2c96c16db61b0096db64800b6db001fdb6dfc1b6db6d80182c02002580d80012016c000900940;
   0x125b24300b2cb2003fb6dbfc024104805f0cfe4005bed96012492df01865904004b6db20005b6c001fedb7f82db6db6c02c30010012006c00090090000000c80;
   0x1800100b2cb2003ff6dffc000180007f3cfe40079e482008492d80182490000016d800001b6c000fedb7f824b6db2006030000012004c00000090000000480;
   0x2496492036db6c301fedb7f80492c92036db6d800b6db2400c82490010592c00092db2480016d80002db6d901b6db6d80502800c02400c80012006c000100900;
   0x124924304b2cb2403f82c1f80249e4807ffffec004b6d82006cb2500182590000402c02000036000002d90000d82c16002030006012004c00010080000000480;
   0x800104b6db2000c0000200003c0007ffffec00492482003d82400182c1000000000000000000000000000040000200303e00203300cc003b00dc003300cc0;
   0x2492482012492410000000000492c92036db6c900124924000b0080010082000000000000000000000000000000000000082c00002580c80032016c005b00960].
Definition emoji_rows_38 : list N :=
  [0x2000080010000400080002002000080000002000000400000010000000002000000400000090000002492480000000000000000000000000002400000000000;
   0x124004900920024824800120124004900000120000124000000920000000124000124000004b0000012492480000000000000000000590000017f80000000000;
   0x24900924924824924920124824900924000124900024900000124800000124900024900005b6c00002db6db6016400000012000002db6d80006db60000124000;
   0x92482492492412482490492492482492000092400092480000492400000092400092480002db60000165b6d905b64000004900000bffb6c001b6db0000092000;
   0x124824924924124824904924124824920000924800924800004924000000924800924800024b20000124924805b6c000004900000bff924001ffff8000092000;
   0x2492492492482492492412492492492400012490012492000092490000012490012492000db6d80002496cb61b6db0000092400002db6d80036db6c000124800;
   0x92482492492412492492492492482492000492480092490000492400000492480092490006db6800012496d90db6d8000249200001edb70005b65b6000492400;
   0x104824124124104820924824104824120000824800904900004824000000824800904900024b2000012492480db6d8000249200000ffff00079019e000492400;
   0x2492492492482492492412492492492400012490012492000092490000012490012492000db6d80002492cb60b6db0000492480000db6d80092492c000924900;
   0x12482492596416582cb24b2c124824920004b2c800965900004924000004b2c80096590016db6c00092496d90492480002492400017ffe000000000000492400;
   0x186026181864061838e2471c18602618000030c8009e3900004c3000000030c8009e390016cb64000924924804924800024b2400012492000000000000482000;
   0x2cb24b2c92482492596416592cb24b2c00012490012cb2000096590000012490012cb2000db6d800124924b6092490000496c800024924800924924800964900;
   0x12482492492412482492492412482492000492480092490000492400000492480092490012c9e400092492c904924800124b6400012492400000000000492400;
   0x2002080010400400002400002002080000002080080010000410000000002080080010013c3e4000020824004020800024be400010410400000000000410400;
   0x2492492492482492492db2492492492402db2490012492000092490002db24900124920005b2c800124b24b60965900004b2c80002492480012492400092c900;
   0x92482492492412492492492492482492092492480092490000492400092492480092490012c96402096592490492480012496400012cb2400492492000492400;
   0x6c821b24b0412c02592496406c821b2092496080092c90000436400092496080092c9001000040208001200040008000209e400010400000010080000480400;
   0x25b25b6496d82db2496db64925b25b6416db24900b6496c005b24b6016db24900b6496c004924804124925b6092c90000492c800024924800924964800124800;
   0x92482492492412492492492492482492092492480492492012492490092492480492492012492412092492d904924800125b65800124924004b24d2000492c00;
   0x924824924924124820904904124824920824904804900920124824900824904804900920121b2402082412480412080010090f80012482000010080000402c00;
   0x6cb6d96cb6db6db65964925b6cb6d96c324965b6196cb2d82cb6596c324965b6196cb2d804b64824125b25b6092c900020924b00024b64800924924800925900;
   0xb24b64964925924b6c92492cb24b64960924b2d824924924124924900924b2d82492492412492410092492d90492480006c96d80012492000492c92000c92480;
   0x92492482412582492d86616c924924820330b6582402c02412492480033096582402c0240200201009009248040248001fc1ffe0012002000002400000c92480;
   0x65b2cb64b64b64b65b6cb2db65b6cb6436596db60b65b6c825b6cb6416596db60b65b6c80492482002496db6096db6c02d92db60004924800124924001b6c900;
   0x924b64924b65924b6d964b6cb24b64964b24b6d82492cb64124b64900b25b6d80492cb6006cb20300b24b6d805b24b6417c9edb0016c96000092490000db2480;
   0x90012082410580092480036c900b60824000b2582082c104000b20800001925800824100127f24200b24b2480d924ba013c1e4f803fcbfc0001ed80000d92480;
   0x6596cb2cb2cb65965b6596db6596db2cb2cb6db65965b2c80596cb2c02cb6db60965b2c02db6db2036d96c905b6d96c86db2db2c06db6da0002db20001b64b40;
   0x92492492592d924b6db2cb6cb24b64964964b6d82492c924024b24920165b6d80496d92036596c205b24b6002d96492412cb641603fdbfc00012480002d92d80;
   0x92092412482d904924924b6c920b64160924925824124824000b2410000592580012c800124924205b24b6002d924960125b241607fdbfe00000000002c12d80;
   0x6cb6db6cb24b6cb65b6496db6496c92c165b6db65b6db6582496db6c124b6db60925b2482db6db2036db6d005b6db6d86db6db2406db6db0000480000192db00;
   0xb6db6db64925b6db6d92496c924924921b2db6d82db6db6c12496db60924b6d82492c92436cb6c205b65b6002d92496032592f100fffffe00000000000c96c00;
   0x12492492000092482400002400000000092492482492492400002492000012480000000012412400092492002400000010000410012492400000000000000000;
   0x4000000100000000000000000000000000000000000000000000000024000000000000000000000100000004924900024000004800120;
   0x120000024800000000000000000000000020000004800000020000000b6000000000400000000000590000012492480092000012400490;
   0x12000002480000000000000000000000092400000490000012000000193c00000000400000000000490000000000000092400012402490;
   0x160000000920000024800005900000004924000000000000924900005b6c00002480000036d800000800b00024800001b6c000025924920124900024904924;
   0x5b0000002490000012000002480000002492000002400002492480016db60000120000005b6c00002482480092400002db6000012480000492400092482492;
   0x490000002490000000000003000000000000000000000002492480012492400010000000792e00012482480092400002492000012480000492400012482492;
   0x5b6c000004924000024000005b0000002492480002492000492492002db6d800024800000b6db00024920b00124900005b6d80006db64920924900024924924;
   0x2db6000002492000096000002580000012492400012480002492490036db6c00010000000db6d80012490400492480006db6000092492000492480092482492;
   0x2492000002492000596000003480000000000000000000002492490092492400010000000fb6f80012490400492480002492000092492000490480000482012;
   0xdb6d80000492480096d000001b4000002492490012492000492492016db6db0002c000001b6db00024924000b24b04005b6d80016c96492092490002cb24b2c;
   0x6496800012492000096000002c800000924924000924900124924900b6db6d80036000006db6db0092490080492480006496400092492000492480012482492;
   0x2002000012002000012000001c80000000000000000000012492490096c8248001200000e4924b00920100800000800024024000000124000c3000010402410;
   0xc92580002492480016c000001b0000012492490012492402492492416db25b0002c00000d92496012492416092490500492480012cb24b20965900024924924;
   0x2492000012cb24000b6000000c900000924924800924900124924921b2492d800320000064924b00924901a0492492012492400092492400492480012492492;
   0x410000010430000036000000db24000000000000000000124800100900004800320000060c20a0086190080002010010410400018612400410080000092400;
   0x4b2c80002492480006db60001b6da00124924900924924024924924364924b4002cb00004965960124b24100924920004b24800124924b2092490002496d924;
   0x24920000124924000b6db0000db7c00092c92480492592092592c92192c925800360800024924800924900804124920124924000924924004b6480096c925b2;
   0x800000100820000bed90000cbfc00003018000010080010180c12083018180036080000410080080410000410080010080400082412400416480012492482;
   0x924000024b6480036db60000b6db0012592c90092c964024b2592436592cb4002c06000092490012492400092c924804924804125924b20924900024b2db24;
   0x5b00000125920005b7db0000db4580092492480492492092592c921924925800360000004b6480092c900004964920125b2482092c924004924924b2492496;
   0x80030012012000cb28b0000ffe080000080000002400010010012080080580016000000412480092c100004804920121824820900924004024924b0400416;
   0x92006c00592c80186592c001b6c300124b6490012592402492c924364b64b4002d800000924900124924000924904004924964164965b20b64924b6d924b6c;
   0x4900b6017c9e000cb2c94000ffe1800924924800924900124924921924925800b68000004924800924900004120920124920b6092492402db24924b6c925b6;
   0x3a007c1e0014b2c92000ffe1b0000410000002400012082010090410480092800000c827000b80d00000000120020020b60b00b0002d924924924c20b6;
   0xd92582402d92d80186d92c805b6c16c124b6490012db2002496d924364b64b40165804000b6db0006db6c80092492400592582c36496c925b6db2d86d965b6c;
   0x1f087c3003fcb6c008b2c97c16db60b00925b2480016c800124b64901b25b2d80182802002cbe7800bfcb6c024160920164924105b25b6482d924924b64924b6;
   0x3f087e2003bc92400c10db6010492080000480000002400012412090090482c80482800002e9a780017c924000160920060020105b00b6002d924124924124b6;
   0x6db6db6006db6cb00849b6c00836980012492490002490000492492016c925b00b05800805b6db60125b24b0492c96d82db6d928b6cb6c005b6db2d86db2cb6c;
   0x3fffff80036db0400c824900104924000924924800024000004924801b6496d80502800402c927800924925824164b6c16db64105b65b6002d924920b6c925b6;
   0x3ffffc00012490400686290018492400000000000000000000000000090000480303800400e927000004124800100b6c007b60105b25b6002492492092c825b6;
   0x6db6d92006db6cb0036c36002c161800020000100000000000000000120000900305b00204b6db2012492496492c96db2cb6d928b6cb6c00492db6d86db6db6c;
   0x12492400012492400090080010080000000000000000000000000000000000000082400000492400000492480000092402492010492492002012492012492492].
Definition emoji_rows_39 : list N :=
  [0x400400000000000080010000000000010002000080090000400400000000000080090000000000000000000010080000082000000410000010080000012000;
   0x5b01b6002480480036016c00490092007f82fb0036016c005b01b6002480480036816c02490092400092000002cb60000365800925b6c92492cb6490036d800;
   0x6d82db00120124007fc1fe0024824900ffc3ff805b45b6006d82db00120124007fc5fe012480492000490000036da00005b6c00496db64924b6db2400db6d00;
   0x7fc3ff0000000000ffc3ff0024824900ffc3ff80ffc7ff007fc3ff0000000000ffc7ff81248249200249200007ffe00007ffe00497ffe4824ffff2400d92d80;
   0xdb65b60024824900b6c36d8049249201ffc7ff00b6cb6d80db65b68024824900b6cb6d82492492400492480006db60000b6db0092db6d92496db64901b65b40;
   0x6d82db0092412400f9e7f60024824900ffc7ef80db65b6806d86cb0092412480f9e7b78924824920124924000b6db00005b6c00496db64924b6db2402d92dc0;
   0x2482490000000000c840820020820100ffc7ef80d94793802486490000000000c8468381208248201249240203ffe00007ffc00497ffe4824bfff2403d92dc0;
   0x5b01b6002582c900b2412400490496006d86db00b6cb6d805b04b6802582c900b24b25824924924024924905b6db64924b6db2492db6d92496db64905b6db60;
   0x24804800120124004900920024824900b6c76d805b05b68024864900120124804904928124824920924924024b6d924925b6c92492db64824b6d92402db6d80;
   0x248048000000200008001000040201003e877f804906b380248649000000200008041181040241009249240249ff924125ffc92093ffa48209ff920025ffc80;
   0x5b00b60024804800120124004904b2006d86db00368b6d805b05b68024825900120b2582cb24b2c124924905b6db64924b6d924925b6c92492db64900964900;
   0x2c00580012002000080010000402590016076f801b05b6802c065b00120124800807b3812482492092492482496d924924b6492492db2482496d92400492480;
   0x40048000000000000000000000249001e03ff80090797000403cb0012012400000787000002000092402482493c924124be4920c2180600413c82000400080;
   0x5b01b6006582db00b2c16c005b0596006d82db00b6c36d805b05b6006d82cb00b2c32582592496412492490496c924924924924964904b24b20925900964900;
   0x2482db0092436d004901b6006d82cb00b6c36d00db41b6006d82cb00b6c32400db4196012492492092492482490092492482492492012482480092402492480;
   0x2482490092412400490492002482490092432500492492002482490092412400492092002492490080000480010080012402002002000000000080000082080;
   0xdb65b6016d82db00b6c16c805b25b6016da6db00b6c36d80db65b6016d82db00b6c16c02d924b6412592c90492c124924924924b24804964900124b00924900;
   0x2482d90092416c004900b6002d80d900b6c16d80db64b6012d82d900b6416c005b04b6012492490093c9a4824924b2412482492492012482480092402492480;
   0x2480490012012400490092002480f8009249fc804924fc002480f9001201fc004900fc0004904000830180804c2032002600490002002000000080000410080;
   0x5b25b6012d92d900b6096c805b24b6012db4d901b6d96c805b24b6012d90d900b6896c82492492412592c90596412592cb24b64b24804965900125b0096c900;
   0x12490d80012096c804900b6012d90d801b6196c805b20b6012d90d80036096c805b00b60b24924920924924824900924124824925920025b6400092c004b6480;
   0x12490480012002400090090002400480012192482090092412410480012012400090092010482412080080480080010000400000412002482000010400480480;
   0x25b0092412d904800360924824901b6432492db4012196c824901b6412492db0012096c86c965b2c124924904964124924b04b24924004924800024900924900;
   0x2d804800360124005b0090002482da0012096c800901b6002482da0012016c000901b60b6c924920924924824924b2412482492492002482000012400412400;
   0x25004800120024001b0090002400480012016c000900920024004800120124000900920124104920904b0480092090000402600092002400490092002400480;
   0x5b0090002d80480036012400090090002480d80012006c00090090002480480012002406d924b6c124b6490492c124924b04b2496d80db24b6816c905b24960;
   0x25004800320024001b0090002400480012006c000900900024004800120000000900000b6c924920924924824924924124024924b6c16d82db01b6402410480;
   0x20004800120004001b0080002000000012004c000100800020004800120000000100000124904920920024824924920000024824960165924900b2400018000;
   0x1b0090002580480032002400090080002400c80012006c00090090002400480012000406db65b6c124924905b6c924900004924b6d82db65b6c16db0492c920;
   0x21004800320004001b0080002000480012004c000100800020004800120000000100800b6d92c920900804824924924000124925b6c16db6db01b6c024be480;
   0x3380c8003301cc007b009e003180cc003300cc005b00cc003180cc003300cc005b00cc0124824920000000024924924000124924960164924900b240003c000;
   0x5b0196006582ca0032c16c005b0096006580c80032c16c005b0096006580c80032c16c02492492400000000492492490000492492482492492412490492c920;
   0x120000004800000024000000120000004900000024000000120000100020001800b00024004000100020000000000024004000000020000800b0000400480;
   0x92400002db0000016580000092400002db0000016d800000b64000120120007f01fe007e80f8003e01fc00000000007e80f800120020007f00fe003e80f80;
   0xb65b0000d92d00006cb60000b65b0000d92d00006cb60000b65b00024824900ffc3ff80db65b6016d82db0092412400db65b60024824900ffc3ff005b41b60;
   0xd92d80016cb68001b65b0000d92d80016cb68001b65b0000d92d80092412480ffe7ff816da6db00b6c36d8049209201ffe7ff0092412400ffe3ff006d82db0;
   0x2d92d80016496c001b24b0002d92d80016496c001b24b0002d92d80092412481ffe7ff81fde7ff01fee3e78000000001fde7ff8092412400ffc3ff00ffc3ff0;
   0x5b65b6002db6d80036cb6c005b65b6002db6d80036cb6c005b65b60124824901feefef80db65b6816db6db0092412480d965b68024824900fec3ef80db65b60;
   0x2db6d80036db6c005b6db6002db6d80036db6c005b6db6002db6d80092412481fb67b7816da6db01b24325804924920164a6490092412400fbc7b6006d82db0;
   0x2492480032492400092494002492480032492400092494002492480092400481fb67ff81a5a6c901926725800100800120264980120004007b01fe002582c80;
   0x5b6db6002db6d80036db6c005b6db6002db6d80036db6c005b6db60124824901b6ef6d80db65b6816db6db0092412480c964928024824800b6c16c005b01b60;
   0x2db6d80012db64001b6d900025b6c8001edb7c001b6db0002db6d80092412480db67b7816da6db01964325804924920124a64900120124005b01b6006d80da0;
   0xff2f8000049000008241000001200001ef878000f2430001ff2f800120120805f07ff802c865b00120725800800100004064980120020005f00fe002480480;
   0x1b6db0000492480002492000092490000d925800164920001b64b0002c025900360b6f801b05b6802c06db0016016c800b05b6802c00580036016c001b00b00;
   0x249248001249200009259000049248001e4938000924b00024924800120124001b07b7002c02db0012032580090092002407cb00120024001b00b0002c00580;
   0x2492480000c10000018180000082000018c130000981900020820800124104005f03b20024824b00124324004100820020824b00120124004900b2002482480;
   0x1b6db4000492480012cb2000096590000c92580012cb2000196594006582cb00b6c36d00db65b6006d82db00b2c36d00db6596016d82db00b6c36d80db65b60;
   0x2492480002c92000092490000492480012c920000924900024924800b6c16c00db65b6006d82db00b6c16c005b01b6006d82db0092436d804925b6012482db0;
   0x3c92480000000000002400000082000000000000002400003c00080036012400db6492002d824900b64124005b0092002d80480092412400c96492002482490;
   0x1b6db4000492400002592000092c90000c92500002592000192cb4012d82d900b6cb6d80db64b6016d82d900b6416c805b24b6012d82db00b6c36d80db65b60;
   0x2c92580002492000012480000492480002492000012480003c92580092016c00c924b60124a4d90092496c804924b6002480d90092416c00c924b60124a6d90;
   0x3cb6780000410000002400000036000000400000002400003c36780012016c00092cb4812490d80012096c800900b4002480d80012012400492492812490490;
   0x1b6db00000b64000025b0000092c900000b64000025b00001b2cb0012d90d801b6996c825b29b6c12d90d80036896c805b21b6012d90d801b6196c825b2db6c;
   0x2d92d80000490000012480000492480000490000012480003f92f80036816c025b01b6c12d90d80036896c805b01b6002d90d800360924825b0890c12d90480;
   0xf92f80000000000000000000000000000000000000000001f80f800120124024900924124904800120124004900920024804800360024021b0090412d90480;
   0xb6db00000920000004900000925900000920000004900001b25b0006d92db00b6c96c825b01b6416d92db00b6c16c005b01b6002d804800360924825b00924;
   0x2592c80002c92000092590002592c80002c92000092590002592c800120124005b00b6002d80d80032016c005b00920024804800360024001b0090002d80480;
   0x2592c80012492400492492002592c80012492400492492002592c800000000001b00d80020004800120004000000000000000000120004001b0090002500480;
   0x5b6db6006db6db00b6db6c005b6db6006db6db00b6db6c005b6db6002400480032006c001b0090002400480012002400090090002d804800320024001b00900;
   0x6db6da00b6db6c005b6db6006db6da00b6db6c005b6db6006db6da00120000001b00900024004800120004000100000000004800320004001b0090002500480;
   0x6dfeda00b6ff6c005b7db6006dfeda00b6ff6c005b7db6006dfeda00000000001300800000004800120000000000000000000000120004001b0080002000480;
   0x5b6db6006db6db00b6db6d805b6db6006db6db00b6db6d805b6db6002000480012004c001b00900020004800120004000100800025804800320124001b00900;
   0x6db6db00b6db6d00db6db6006db6db00b6db6d00db6db6006db6db0032016c001b00dc003180c80032016c001b009c003180c80032016c005b0096002580c80;
   0x2492480092492400492492002492480092492400492492002492480012010400010080002080480012010400010080002080480012010400410082002080480].
Definition emoji_rows_40 : list N :=
  [0x4900000024000000920000004900000024000000920000004900000024000000920000004900000024000;
   0x82400002590000410182006080810080c10180016d800001b6c00002db0000016d800001b6c00002db0000016d800001b6c00002db0000016d800001b6c00;
   0x2ff0000618183006180c300e1c1c7000b25b0000592c00006c960000b25b0000592c00006c960000b25b0000592c00006c960000b25b0000592c00;
   0x496c920025b6c800b6c16d005b01b6006d80db0016cb6c001b65b0002d92d80016cb6c001b65b0002d92d80016cb6c001b65b0002d92d80016cb6c001b65b00;
   0x24b6480012db24005b00b6006d80db00b6c16c001b65b0002d92d80016cb6c001b65b0002d92d80016cb6c001b65b0002d92d80016cb6c001b65b0002d92d80;
   0x10000000490092002480490092412480192494002c92580032492c00192494002c92580032492c00192494002c92580032492c00192494002c92580;
   0x4b6db2012db6d90092412480490092012482490036db6c005b6db6002db6d80036db6c005b6db6002db6d80036db6c005b6db6002db6d80036db6c005b6db60;
   0x127ffe900bffffc80490092012482490092412480592496002492480032492c00592496002492480032492c00592496002492480032492c00592496002492480;
   0xffff0003ffffc00010080002080410090412080092494002492480032492400192494002c92580032492c00192494002492480032492c00192494002492480;
   0x24b6db2416db6db00b24164804b0096012482490016db6c001b6db0002db6d8001edb7c001b6db0002db6d80016db6c001b6db0002db6d80016db6c001b6db00;
   0x12d927900bec97c804900920024804800924124800924900004924800124920001ffdf8000fb6f8001ffbfc001b6db0000db6d80016db6c001b6cb0000db6580;
   0xc103000fe003e000800100004000800904120800900100004000000124020001ffdf8000fbef0001ffbfc001fe4b0000c9270001fd97c000d24b0000c92500;
   0x24925b2416c925b2092012400490092012c8259001249200009259000249248001edb78000b6db0003db6d80016db68000b6db0002db6d80016db68000b6db00;
   0x124934900f2c92e80080010002400480016002c000965900004934000124924001befb0000df7d80016db6c001b6db0000db6d80016db6c00196590000d93c00;
   0x830000f0c10e0008001000040008000000200009c190000083000010c300001fefb0000df7d80017ffec0009e790000593c00012cb2c0009e790000493400;
   0x2492492416592cb20b2812400c90196016582cb0012cb200009249000249248001edb70000b6db0002df6d80016db60000b6db0002db6d80016db60000b6db00;
   0x124924900f2492e8049019601e583cb00d2c125800924900004924000124924000b6db00005bec0001edb7c000b6db00005b6c00016db6c00092490000492400;
   0x100000f0080e007b00f6016f82df00f30186000024000000100000100820000f7db00005bec0001eff7c0009249000049240001e593c00092490000492400;
   0x2492492416c925b24b6496c825b24b6416d92db2002592000012480002492480006db6000036da0003db6d80006db6000036da0002db6d80006db6000036d800;
   0x124924900f2492e827f24fe407f10fe243e087c00012480000092400012592400036d800005b6c0001edb7c00036d800005b6c00016db6c00012480000092400;
   0x920000f8483e003f00fc007f00fe003e007c0000240000009200001258200001ff800001ffc0001ffffc00016c800000b640001e597c00012480000092400;
   0x2492492416cb65b20b6416c825b24b6416d82db0000590000012480002492480002db0000016d80003fb6f80002db0000016d80002db6d80002db0000016d800;
   0x124924900fe497c807f00fe007f80ff00be017c00002400000092000012492000006d000000b600001fdbf800006c000000b6000016db6800002400000092000;
   0xfe017c007f00fe007f00fe0016002400000000000080000002412000007e000000fe00001e7f3000002400000092000016492000002400000092000;
   0x2492492416c925b20b6016c005b00b6002400480012cb2000496592002d92d80012db2000496d92002db6d80012db2000496d92002db6d80012db2000496d920;
   0x100120124904924804100800024004800020004005b6592006d92db0036cb6c005b6d92006db6db0036db6c005b6d92006db6db0036db6c005b6592006db6db0;
   0x5b2cb2006d92da0036596c005b2cb2006d92da0036596c005b2cb2006d92da0036596c005b2cb2006d92da0;
   0x24924924124924920820104004000800004020800b6db6c00db6db6006db6db00b6db6c005b6db6006db6db00b6db6c00db6db6006db6db00b6db6c00db6db60;
   0x100000024004900800000000000020800820100005b6db6006db6db0036db6c005b6db6006db6db0036db6c005b6db6006db6db0036db6c005b6db6006db6db0;
   0x400010002000000000000db7fb6006dbedb0036ff6c00db7db6006dfedb0036ff6c00db7db6006dbedb0036ff6c00db7db6006dfedb0;
   0x24924924924924925860b0c020304160305860a00b6db6d80db6db6006db6db00b6db6d80db6db6006db6db00b6db6d80db6db6006db6db00b6db6d80db6db60;
   0x2010402010402080002000400492492002492490012492400492492002492490012492400492492002492490012492400492492002492490;
   0x0;
   0x924900004924000024920000924900004924000025b20000924900004924000025920000924900004924000025920000924900004924000024920000924900;
   0x49240000249200009249000049240000249200009ff90000492400002492000096d90000492400002492000096d90000492400002492000092490000492400;
   0x920000000800000124800000fe00000059000003ffc00000be00000049000003ff800000b600000049000003ff800000000000000000000000000000fe000;
   0x492492002492490092492400496d920024b6490092db6400496d920024b6490092db6400496d920024b6490092db6400492492002492490092492400496d920;
   0x2400090090002400480012002400090092002400480012002400090092002400480012002400090092002400480012002000090090002400400002002400090;
   0x400400002002000090090000f92f00006c960001f25f80004924000024960001b24b80004924000024920001924b0000000000000000000000000000492600;
   0x4b6c920125b6c90092db64805ffff2012ffff900bffffc805b6db2012db6d900b6db6c804b6db2012db6d900b6db6c804924920124924900924924805b6db20;
   0x12492490092492480492492012ffff90097ffe4807ffffe012db6d90096db64805b6db6012db6d90096db64805b6db6012492490092492480492492012ffef90;
   0x490480002492000492492003ffff8001ffff0007ffffe001ffef8000fff70007ffcfe000ffef80007ff60007ffcfe000000000000000000000000003ffef80;
   0x24924924124924900924924825fedba412fb6f900bfdb7c825b6db2412db6d900b6db6c825b6db2412db6d900b6db6c824924924124924900924924825b6cb24;
   0x12492490092492482492492413db6f9009edb74827f6dbe412db6d90096db64825b6db6412d925900964924825924b6412492490092492482492492413d92590;
   0x82080000412000480012003ff7f8001fdbf0007f6dbe003c9258001ec9200079249e003c9258000649200079249e000082000000410000000000003c80180;
   0x2496592412592c92492c924825bedb2412db7d924f6db6f825b6db2412db6d924b6db6c825b6db2412db6d924b6db6c82496592412592c92492c924825965924;
   0x12493490092c9248249e592413df7d90096db64827befbe412db7d90096db64825bedb6412d93d90092cb248259e596412493490092cb248249e592412c93590;
   0x82080000410000418182001df7d80017dbe0007befbe000c92580012c9200079e59600049248000249200079a596000082000000490000018180000082080;
   0x24924924124924924924924825b6db2412db6d924f6db6f825b6db2412db6d924b6db6d825b6db24125b6c924b6db6d824924924124924924924924825924924;
   0x12492490092492482492492412db6d90096db64827b6dbe412db6d90096db64825b6db6412c92590092592482592496412492490092492482492492412c92590;
   0x10000000000000480012000dbef00002db60007b7dbe000492400002492000792c9e00049240000249200079249e000010000000000000000000000010000;
   0x24924924124924924924924824b6db24125b6c924f6db6f824b6db24125b6c924b6db6c824b6d924125b6c924b6db6c824924924124924924924924824924924;
   0x124924900925924824964924125f6c90092ff64827b6dbe4125b6c90092db24825b6db64124b64900925b24825964b64124924900925b2482496492412492490;
   0x92000000080000482c120001ffc00002ff00007f7ffe0000b64000024900007d7cbe000092000000490000792cbe000092000000080000002c00000092000;
   0x2492492412492492492492482496d924124b64924fedb7c82496d924124b64924b6db6c82496c924124b64924b6db6c824924924124924924924924824924924;
   0x124924924924924824924924124b6492492db24827f6dfe4124b64924925b24827f6db64124924924924924825b24b6412492492492492482492492412492492;
   0x4800100000fe0000007f00007d2cbe0000920000004900007924be0000920000004900007924be000010000000080000000000000000000;
   0x2492492412492492492492482496c924124b64924b2db2c82496c924124b64924b25b2c82492c924124924924b2592c824924924124924924924924824924924;
   0x10010012480080082412482410012012480080082416d82410012012480080082416d82410010012480080082412482410010012480080082412482410000012;
   0x16d80000000000000000000012480000000000000000000012480000000000000000000000000000000000;
   0x2492492412492492492492482492492412492492492db2482492492412492492492db2482492492412492492492db24824924924124924924924924824924924;
   0x10000002400000082012480410000002400000082016d80410000002400000082012480410000002400000082012480410000002400000082012480410000002;
   0x0;
   0x20000004100000024000000820000004100000024000000820000004100000024000000820000004100000024000000820000004100000024000000820000004].
Definition emoji_rows_41 : list N :=
  [0x0;
   0x0;
   0x124800004920000024900000124800004920000024900000124800004920000024900000124800004920000024900000124800004920000024900000124800;
   0x492400002492000012480000492400002492000012480000492400002492000012480000492400002492000012480000492400002492000012480000492400;
   0x0;
   0x924900024924800124924000924900024924800124924000924900024924800124924000924900024924800124924000924900024924800124924000924900;
   0x2492480012492400092490002492480012492400092490002492480012492400092490002492480012492400092490002492480012492400092490002492480;
   0x0;
   0x4924920124924900124924004924920124924900124924004924920124924900124924004924920124924900124924004924920124924900124924004924920;
   0x2492490092492480492492002492490092492480492492002492490092492480492492002492490092492480492492002492490092492480492492002492490;
   0x1a0000024b0000002400000010000002490000002400000010000002490000000000000000000000000000000000000000000000000000000000;
   0x492492012496c90016cb6400492592012496c90012cb6400492592012492c900124964004925920124924900124924004924920124924900124924004924920;
   0x124924900965b64804b6db20124b6c900925b64804b6db2012496c90092492480492492012492490092492480492492012492490092492480492492012492490;
   0x480000012fb7c000b7db00005fee80012492400092490000492480012492400092490000492400000000000000000000000000000000000000000000000000;
   0x2492492412db6d90096db6c025b6db2412db6d90016db6c025b6db24125b6d90016db6c024b6db24124924900124924024924924124924900124924024924924;
   0x124924900b6db6c805bedb6012db6d900b6db6c805b6db2012db6d90092496480492592012492490092496480492492012492490092496480492492012492490;
   0x2180c00037dbec00dbedf6003fb7d8001749e4004b2592002592c8001349e400492592002592c8000301e000010080000180c0000301e000010080000180c00;
   0x24b2592416fb6db00b7dbed825b6db6416db6db00b6db6d825b6db6412db6d900b6db6c025b6db6412592c90092c964024b2592412592c90092c924024925924;
   0x12592c900b7dbec00db6db6012db7d900b6db6c00db6db6012db6d90096496400492592012592c90092496400492492012592c90092496400492492012592c90;
   0x2080400037dbec005b6db6003fb7d80012492400492492002592c80012492400492492002492480002000000000000000080400002000000000000000080000;
   0x2492c92416db6db00b6db6c025b6db6416db6db00b6db6c025b6db6412db6d900b6db6c025b6db2412492490092492402492c92412492490012492402492c924;
   0x124924900b6db6c005b7db6012dbed900b6db6c001b6db4012db6d90092492400092c900124b6490092492400092c90012492490092492400092c90012492490;
   0x2010080036ff6c001b7db0002dbed80012592400092c90002492480012492400092490002492480000080000002400000010000000080000002400000000000;
   0x2492492402db6d80016db6c025b6db2402db6d80016db6c025b6db2402db6d80016db6c024b6db24024924800124924024924924024924800124924024924924;
   0x124b6490036db6c001b6db0012db6d90016db6c001b6db0012db6d900124924000924900124b64900124924000924900124b64900124920000924900124b6490;
   0xbe00001fffe8000bfff00005ffe00012db2000096d900004fe4000124920000924900004be4000024900000124800000be0000024900000124800000be000;
   0x2492c92400db6d80016db60024b6db2400db6d80006db60024b6db24005b6c80006db60024b6d924005b6c80002db2002492c924005b6c80002db2002492c924;
   0x12492490006db6000036da00125b6c90006db6000036d800125b6c90002492000012480012492490002492000012480012492490002492000012480012492490;
   0x2db6000016d800000b6000002490000012480000092000002490000012480000092000000000000000000000000000000000000000000000000000;
   0x4824120001b6c00002db0000482c120000b6400000db0000482c120000b64000005b00004824120000920000004900004824120000920000004900004824120;
   0x480000002400000000000000480000002400000000000000080000002400000000000000000000000000000000000000000000000000000000000;
   0x0;
   0x180000002c00000010000000180000002c000000100000000000000000000;
   0x2c00000036000000580000002c00000036000000580000000000000000000;
   0x167800000f6000000cb00000167800000f6000000cb0000000000000000000;
   0x2492000000000000000000002492000000000000000000002db6000036d800005b6c00002db6000036d800005b6c000124920000124900;
   0x120000004800000924800000120000004800000924800000120000004800000b25b0000592c00006c960000b25b0000592c00006c96000092490000492400;
   0xf24f0000f92f8001e4970000f24f0000f92f8001e497000000000000000000;
   0x12480000492400012492400012480000492400012492400012480000492400016db6c001b6db0002db6d80016db6c001b6db0002db6d800924924000924900;
   0x4924000024920000924900004924000024920000924900004924000024920001b24b0002d92d80016496c001b24b0002d92d80016496c00492492002492480;
   0x1f24bc003c9278003e497c001f24bc003c9278003e497c00000000000000000;
   0x92490000492400012492400092490000492400012492400092490000492400036c96c005b25b6002d92d80036c96c005b25b6002d92d800924924804924920;
   0x4924000024920000924900004924000024920000924900004924000024920005b24b6002c92580036496c005b24b6002c92580036496c00492492002492480;
   0x920000024900000000000000000000000000000000000000000000000000007d24be003c927c003e493c007d24be003c927c003e493c00000400000482000;
   0xb6d900005b6c00012492400092590000492400012492400092590000492400036db6c005b6db6006db6db00b6db6c005b6db6006db6da00924924804924920;
   0x593c000024b2000092590000493c000024920001925900004934000024920005b6db2016db6db00b6db6d805b6db6002db6d90096db6c00492492002492480;
   0x493400002cb2000018180000083000000c30000198190000083000000c300000bff90017ffffb0097ffe4804bffb20005ffc80002ff6000090000000000000;
   0xb6db00005b6c80012cb2000092490000492400032cb2c00092490000492400092492480db6db6816db6db00b6db6d804924920124924900964964804925920;
   0x492400002492000092490000492400002492000192490000492400002492000492592016db7db00b6db6d80492592012592c900924924804b24d2002592c90;
   0x492400002490000000000000010000000080000180010000410400000080000010080016fb7db0093c9e480492592000180c000030180004300c2000180c00;
   0xb6db00005b6c000125920000124800000924000125928000b2cb0000092400092c96480db6db6016db6db00b6db6c804b2592002592c900964964804925920;
   0x5b6c000025b00000924900004924000005900000924900007b6c00000590000092490002db6d90036db6c00492492002592c80012492400492492002492490;
   0x793c000005900000000000000000000005800000000000007d3c00000180000000000002dbed80012492400092490000000000000000000400002000000000;
   0x36d800000b60000025b20000124800000920000025b0000036d800000920000125924001b6db4002db6d80016db6c00092c900024b6480092492400092c900;
   0x1b6c00000480000012c80000092000000480000012c800001ffc00000480000092c90002dbed80016db6c00092c90000492480012592000492c92002492480;
   0xff0000004800000000000000000000000800000000000001ff800000000000000000000dbed80012492000092490000010000000000000000000000000000;
   0x96d90000db6d80002492000092490000d92d80002492000096d90000c925800124920001b6db0000db6d80016db60000924900004924800124924000924900;
   0x25b6480016496c000b65b0002592480016496c000b65b0002592480016496c00096590000df7d80006db6000096d900004b6400002cb2000096590000592c00;
   0x2492480036c96c00496492002492480036c16c00496492002492480036c16c000124800005ffc00002db2000012480000092000000490000012480000092000;
   0x5b6db6006db6db00b6db6c005b6db6006d92db00b6db6c005b6db6006d92db0002492000036da00005b6c00002db60000124800004924000024920000124800;
   0x2496490036cb6c005b6db6002496490036cb6c005b6db6002496490036cb6c000124800001b6c00002db0000012480000092000000490000012480000092400;
   0x2492490036db6c00492592002492490036db6c00492592002492490036db6c000000000000b6000000490000002400000000000000000000000000000000000;
   0xdb6db6006db6db00b6db6d80db6db6006db6db00b6db6d80db6db6006db6db0000480000002c000000120000004800000024000000100000004800000024000;
   0x2492490012492400492492002492490012492400492492002492490012492400000000000000000000000000000000000000000000000000000000000000000].
Definition emoji_rows_42 : list N :=
  [0x0;
   0x24000000b60000004900000024000000120000004800000000000000000000000000000000000000000000000000000000000000000000000000000000000;
   0x92000002db0000016d80000092000000490000002400000092000000000000000000000092000000000000000000000092000000000000000000000092000;
   0x3dbe000012480000492400000000000000000000000000000000000000000000000000000000000000000000000000000000000000000000000000;
   0x492492002db6d80016db64004b6db20024924800124924000924900000920000004900000924900000920000004900000924900000920000004900000924900;
   0x2492480016db6c004b6db2002492480012492400492492000492480002490000012480000492480002490000012480000492480002490000012480000492480;
   0x1edb7c00092490002492480000000000000000000000000000000000000000000000000000000000000000000000000000000000000000000000000;
   0x492492012db6d900b6db6c805b6db20124924900924924804924900004924000024920004924900004924000024920004924900004924000024920004924900;
   0x124924900b6db6c805b6db6012492490092492480492492002492480002492000012480002492480002492000012480002492480002492000012480002492480;
   0xbfdbfc00492492002492490000000000000000000000000000000000000000000092000000480000002c00000010000000480000002400000010000;
   0x492492016db6db00b6db6c80596c96012492490092492480492490000492400002492000496d900004b6400002db2000496d900004b6400002db2000496c900;
   0x24924900b2db2c00596c960024924900924924004924920024924800024920000124800025b6c80002db2000016d800025b6c80002db2000016d80002492480;
   0xb2db2d80492492012492490000000000000000000000000000410000000000000fb6c00003dbe0000b6d90000492400002c92000092490000492400;
   0x2492492436db6db65b6db6d82db6db6c12492490092492480092590000592c800124b20001b6db0000db7d80016db60001b6db0000db6d80016db60001b6db00;
   0x12592c905b7dbed82db6db6c12592c92092c92482492592402493c80002c92000096590003df7d80016dbe0000befb0002db7d80016db60000b6db0002d93c80;
   0x782c005bfdbfd824ba5f2412793c90003c1e0000301c0000083080000410000004000003df7d80007dbe0000befb0003d93d80002492000096790003493480;
   0x24b24b2436fb6db65b6db6d82db6db6c12592c924964964800924900004924000024920001b6db00005b6c00006db60001b6db00005b6c00006db60001b6db00;
   0x124924905b6db6d82db6db6c12492492092492482492492400492480002492000012480003db6d80006db6000036d80000db6d80006db6000036d80000492480;
   0x1b6db6d82492492412492490000000000000000000010000002082000002400000dbed80007ffe000037f80000c92580006596000012480000492480;
   0x2492492416db6db01b6db6d825b6db64124924900924924800924900004924000025b00000b6db00007bee00002db40000b6db00005b6c00002db00000b6db00;
   0x24924800b6db6c005b6db6002492480012492400492492000492400002492000012c800005b6c00007ffe000016d800005b6c00006db6000016d80000492400;
   0x10000036ff6c00492c920024924800000800000024000000920000024900000000000001ffc00003ffc000007c000000b6400003ffc000002400000092400;
   0x492492002db6d80036db6c005b6db6002492480012492400012c80000092400000480000016d800001ffc000005b0000016d800001b6c000005b0000016d800;
   0x2492480036db6c001b6db00024924800124924000924900000920000004900000024000000b6000000ff0000006c000000b6000000db0000006c00000092000;
   0x92000017ffec000965900004924800004900000124800000000000004900000b009000003e000000ff00000b6d90000012000000ff00000b2490000012000;
   0x96d90000db6d80016db68000b6db00005b6c80012db20001b65b0002d92d80036496c001b6db0002db6d80036db6c001b6db0002db6d80036db6c001b6db00;
   0x492400016db60000b6db00004b6400002492000092490002db2d80012c924005b25b6002db6d80012d924005b6db6002db6d80012d924005b6db6002db2d80;
   0x6db60000124800004924000000000000000000024924800124924005b65b60024924800124924005b6db60024924800124924005b65b6002492480;
   0x124800005b6c00002db6000016d80000092400002490000db6db6006db6db00b6cb6c00db6db6006db6db00b6db6c00db6db6006db6db00b6db6c00db6db60;
   0x92000000db0000016d80000092000000490000002400006db6db00924b24005b6db6006db6db00924b24005b6db6006db6db00924b24005b6db6006db6db0;
   0x80000002400000000000000000000000000002492c900924924005b6db6002492c900924924005b6db6002492c900924924005b6db6002492c90;
   0x4924920024924900124924004924920024924900124924004924920024924900124924004924920;
   0x400000000000000000000000000000000000000080000002400000010000000080000002400000010000;
   0x2000000400000000000000002000000090000003f00000016000000090000000400000012000000580000002c00000036000000580000002c00000036000;
   0x124800004924000024920000124800000b2c000005b0000016d800000b6c000005b00000025800000b6000000db0000016d800000b6000000db0000016d800;
   0x492400002492000012480000492400000490000016d800001b6c00002490000012480000092400002db2000016d800004b6c00002db2000016d800004b6400;
   0x20000004000000000000000020000004000000bedb0000492400002492000012000000080000002492000092490000492400002492000092490000492400;
   0x92490000492480012492000092490000492480016db6c001b6db0002db6d80012c92000092490002db6d80016db6c001b6db0002db6d80016db6c001b6db00;
   0x4924000024920000924900004924000124924001b6fb4002db6d80012cb2400092490002492480036db6c005b6db6002db6d80036db6c005b6db6002db6d80;
   0x20000004000000000000000020000004100005bffb60024b6480012492400002400000082000012492400492492002492480012492400492492002492490;
   0x924900004924800124920000924900024b64900b6db6d005b6db6006db6db00925b2400496c92016db6db00b6db6d80db6db6016db6db00b6db6d80db6db60;
   0x2492480012492400092490002492480092492400db6db6006db6db00925924004924920024924900b6db6d80db6db6016db6db00b6db6d80db6db6016db6db0;
   0xdb7db6012492490092492400000000000000000092492480492c92012492490092492480492492012492490;
   0x92490002c925800164920001924b00124924901b6db6d82db6db6c16db6db0092492480492492016db2db01b6db6d82db6db6c16db6db01b6cb6d82db65b6c;
   0x49248001e493c000924b0002492480092492482db6db6c16db6db00924924804924920124924901b6492d82db6db6c16db6db01b6496d82d92496c16c925b0;
   0x82000018411800098190002082080000000002dbedb6c124924900924924800000000000000000900004804befb2012492490092492480480012012000090;
   0x96590002c92580012cb2000196594012592c925b6db6db6db6db6c36db6db6492cb64824965924164924b01b6db6d82db6db6c16db6db01b2492582c92496c;
   0x492480012c92800092490002492480493cbe486dbeff6cb6df7db6493cbe4824be592412593c92192c96580db6db6816db6db0196c96580cb2592816592cb0;
   0x82000010000000002400003400080003c3e006dfeff6c927f7c92493cbe48003e7c00007c3c00082412080596cbe012492490092492480410082010482410;
   0x92c90000c92580002592000192cb4092592c925b7dbedb6db6db6cb6db6db6492cb64924b6592412592c901b6db6d80db6db6816db6db0192492580c924928;
   0x492480002492000012480003c92580492c92486dbedb6c36db6db6492cb2482492592412592c90093c9a580dbedb6816db6db0093c9a580c92592012592c90;
   0x36000000000000002400003c36780000000002db6db6c12492490092492480000000000000000083018000dbedf6012592c90093c9a480410082000180c10;
   0x92c900004b64000025b00001b2cb00124924901b6db6d82db6db6c16db6db0092492480492492012592c901b7dbed80db6db6816db6db0092c924804925920;
   0x492480000490000012480003f92f80092492400db6db6016db6db00924b2480492492002492490092492480db6db6016db6db0092492480492492012492490;
   0x1f80f800007f0000dbffb60024fe4900927f2400006e000000fe0000000800005b7db6002492480012492400002400000010000;
   0x924900000920000004900001b24b00024964900b6cf6d005b6db6006d96db0092cb2400496d920024b6480036db6c005b6db6002db6d80012592400492c920;
   0x5b6c800024900000124800005b6c800124f24005b6fb6002dfed800124f2400496c920024be4800124924005b6db6002db6d80012592400092490002492480;
   0x20fe4800120100000100800020fe4800007c00001b7fb00024be4800127d2400003c0000003e0000004900001bffb00024b6480012492000002400000092000;
   0x596d96002592c80032c92c00596d96000492480016db6c001b6db0002db6d80012592000092c900004b6480016db6c001b6db0002db6d80012db2000096d900;
   0x60be4a0032490c005924960060be4a00024920000b6db00005b6c000024920000124800004924000025920000b6db0000db6d800125b2000096c900004b6400;
   0x2092080090590400412c82002092080000000000016d800000924000004900000000000000000000000800000b7db0000492400002492000002400000000000;
   0x596d960065b6cb00b2db2d00596d960000920000005b0000012c80000092000000490000002400000492400002db6000036d800005b6c000024920000124800;
   0x61b6ca00b2cb0d00d96596006192ca0000000000000000000000000000000000000000000000000000490000016d800000b6000000490000002400000092000;
   0x2082080010410400400002002082080000000000000000000000000000000000000000000000000000000000002400000010000000000000000000000000000].
Definition emoji_rows_43 : list N :=
  [0x4800000024000000120000004800000024000000120000004800000024000000120000004800000024000000120000004800000024000;
   0x90000000090000002400000012000000480000002400000012000000490000002400000012000000480000002400000012000000480000002400000012000;
   0x92000000490000000000000002000000400000000000000002000000400000000000000002000000400000000000000002000000400000000000000002000;
   0x124800004b64000024920000924900004924000024920000924900004924000024920000924900004924000024920000924900004924000024920000924900;
   0x492400002492000012480000492400002492000012480000492400002492000012480000492400002492000012480000492400002492000012480000492400;
   0x492400012492000000000000002000000400000000000000002000000400000000000000002000000400000000000000002000000400000000000000002000;
   0x92490002db6d800124920000924900004924800124920000924900004924800124920000924900004924800124920000924900004924800124920000924900;
   0x249248003ffffc00092490000492400002492000092490000492400002492000092490000492400002492000092490000492400002492000092490000492400;
   0xfffffe00000000000002000000400000000000000002000000400000000000000002000000400000000000000002000000400000000000000002000;
   0x492492016db6db00124924000924900024924800124924000924900024924800124924000924900024924800124924000924900024924800124924000924900;
   0x24924900ffffff80092490002492480012492000092490002492480012492400092490002492480012492000092490002492480012492400092490002492480;
   0x1ffff7f80080010000000000010000000190098000480400012012c00190010000400400012002800080010000400000012002000000000000000000;
   0x492492016db65b001249240009259000249248001edb7c000b6db0003db6d80016db6c000b6db0002db6d80016c96c000b65b0002d925800124920000925900;
   0x124924901fec92f800925900004934000124924001bedb8000df7d80016db6c001b6db0000db7d80016db6c00196590000d93c000124b2c00092590000493400;
   0x1f0000f8009c190000083000010c300001fefb8000df7d80017ffec0019e790000593c00012cb2c0019e590000493400012cb240001e180000083000;
   0x24924924364924b4012cb200009249000249248001edb68000b6db0002db6d80016db68000b6db0002db6d80016db68000b6db0002db6d80012cb20000924900;
   0x124924901d24925800924900004924000124924001b6db00005b6c0003edb7c000b6db00005b6c00016db6c00092490000492400012492c00092490000492400;
   0x180c001c30181800800100000100000100820000f7db00005bec0001eff7c0009249000049240001e593c0009249000049240001a493c00002400000010000;
   0x24b2592436592cb4002592000012480002492480006db6000036da0003db6d80006db6000036da0002db6d80006db6000036d80002db6d800025920000124800;
   0x12592c90193c9a5800124800000924000125920000b6db00005b6c0001edb7c000b6d800005b6c00016db6c000124800000924000165b6c00012480000092400;
   0x804001c00103c000240000009200001258200003ff800001ffc0001ffffc00016c800000b640001e597c0001248000009240001e597800002400000092000;
   0x2492c924364b64b4002590000012480002492480002db0000016d80003fb6f80002db0000016d80002db6d80002db0000016d80002db6d800025900000124800;
   0x124924901d2592780002400000092000012492000016d800000b600001fdb7800016d800000b600001edb7800002480000092000016496800002400000092000;
   0x100001e0000780000000000000000002002000007e000000fe00001e7f7000002400000092000016492000002400000092000012482000000000000012000;
   0x24964924364924b40024920000924900005b6c80002db2000096d900005b6c80002db2000016d800005b6c80002db2000096d900005b6c80002c920000924900;
   0x124b64901f25b2f80092490002492480012ff2c00096d900024b6480012ff2c00096d900024b6480012ff2c00092490002492480012ff2c00092490002492480;
   0xbe0001f07d0f800100800020824800127d0400012c800020b64800127d04000124800020924800127d04000124800020924800127d0400010080002082480;
   0x2492c92436c925b40b2cb2c005965960065b6cb00b2db2c00596d960065b6cb00b2db2c00596d960065b6cb00b2db2c00596d960065b6cb00b2cb2c005965960;
   0x124924901fe493f80592c96006192cb0032590c00592c96006192cb0032590c00592c96006192cb0032590c00592c96006192cb0032590c00592c96006192cb0;
   0x1fe007f80412482002092090010490400412482002092090010490400412482002092090010490400412482002092090010490400412482002092090;
   0x482412016c105b00b2db2d80d96d960065b6cb00b2db2d80d96d960065b6cb00b2db2d80d96d960065b6cb00b2db2d80d96d960065b6cb00b2db2d80d96d960;
   0x80000400412482002092090010490400412482002092090010490400412482002092090010490400412482002092090010490400412482002092090;
   0x2492400000000000000000000000000000000000000000;
   0x6016d80c00000000002490000012480000492400002492000012480000492400002492000002400000db6db0030c304000124800000900000000900000124800;
   0x90492412000c1000001248000040040000200200009009000040040000200200009009000009200001edbed8001e780000092000000490000012480000092000;
   0x12492492000c1000000000000000008001000000008001000000008001000000008001000000000001fffff8001ff80000002400002400000012480000002400;
   0x6db6db6c00082000012492400080010002010080010080400082410002000080010080400012480000db6db40b6db6d800b24900004b64800124960000b24900;
   0x12492492402c92000492492002092080010ff0400016c800020b6080010480400016c80000492400017dbed80cb6db7000492480016db68000b6db0000db6d80;
   0x12492492407ffe030000000002092080013ffc40001ff800021ffc8001000040001ff80000000000013ffaf80e9ff9600049248003ffffc001ffff8003ffff80;
   0x2db6db6c80db6d820924924800924900025bec80012db64000b6d90002492480012db64000b24900005b6cb40b6db6d80492492007ffffe0036db6c005b6db60;
   0x12492490416db6830492492000492480012492000092490000492480012492000092490000792480000ff0580f96d9f8024924800fffffe005b6db6006db6db0;
   0x1249249043ffffc3040000200049248001a493c00192498000c925800024920001924980007e2c000007c0783f97fbfc024924900ffffff00fffffe007fffff0;
   0x2db6db6c82db6d820b2492c80092490003db6f80036db6c005b6db6002492480036db6c020b65900004b64b45b6db6da049249201ffffff00b6db6d80db6db60;
   0x12d92d92436db6c32f924be40249248003ffffc005b6df6002db6d800124924007ffdfe010cb3c80012db0587fb6dbfc124924901ffff7f80db6db6816db6db0;
   0x13f93f9243e183c30ff00ff00249048007ffffe007fe5fe007ff2fe00000000007fe1fe0004e0400011df0783ffffffc124900901ffff7f81fffcbf81fff25f8;
   0x6db6db6c82c345824b6c96d80492492007fb6ff00b6db6c005b6db60024924800b6c96c024b6490012db65b41b6db6d8249249243fdb6dfc1b6db6d82db6db6c;
   0x92db6d92436186c32ffa5fe4024924900ffdbff005b6db6006d92db00124924007f24fe0124924805b6d92d83cb6d97c124924901fedb6f82db6db6c16c924b0;
   0x925f7c921be183d807fe7fe0024004800fedbff007f24be007c927f00000000007c003e0000100004924b7f83cb3dd7c120000103f6db6fc3e92497c1e4924b8;
   0x6db6db6c36c345b44b6cb6c80492492007db6df00b6db6d00db6db60024924900b2492d02496c92436db6db45b2d96da249249243edb6dbc1b6db6d82db6db6c;
   0x925b6c92036186c025fe7fe4024924900f6db7f00db6db60064f65b0012cb2400f9649e0124fe4905b6db6d87d96c97c12592c901f7dbef82db6db6c36592cb4;
   0x125d3c9203e597c000fe7f00020c20800f6ff7e007967960064d24f00004300006066060001fe000096dfff87fb7cbfe10180c103f7dbefc3cb2593c1e592cbc;
   0x6db6db6c02db6d80096cb6480496592006df6df00b6db6c005b6db60024b64900b2cb24004b6d92400db6db45b6db6da249259243edb6dbe1b6db6d82db6db6c;
   0x12492492036db6c004be792002492480076db6e005b6db60064924a00124924004924960025fe49201fcb7d82db6db7c124924901f6db6fc2db6db6c36592cb4;
   0x1249249203ffffc00012480000000000036db6c004924920024924800000000004000020007fe00001e017f83ffffffc100100103f6ff6fc3c92c93c1e4924bc;
   0x2db6db6c02db6d80092492400092490002db6d80016db6c001b6db00024924800124924004b6c90400c925b05b6db6da2492c9243edb6dbc1b6db6d82db6db6c;
   0x125b6c90006c16000492492000492480016db6c001b6db00004b64800124920000924900025f240201e492d87d92c97e124924901f6db6f82db6db6c364924b4;
   0x125ffc90007c1e0000024000000be00001eff7000097e900004fe4800007f0000007c000000f0000000583f87f9ed9fe120820903f6ff6fc3f96497c1e4924f8;
   0xdb6db6000582c00012db2402492c92412db6d92496db64824b6db24124b64924925924804924904004b65b05b2db2db2496d9243edb6dfc1b6db6d82db6db6c;
   0x2592c90006c16000097c90012492492496db64824b6d92412492492492492482492492412492400002db2c027b2cbe4124b64901fedb7f82db6db6c36cb65b0;
   0x2492480010000400002400000000000002ff0000012480000092400000000000000000000000000002ff7c007f7cfe0124100901feff7f83f92cbfc1fc925f8;
   0x1b6db0002c001800024920024924924124b64924925b24824924924124924924924924824924800001b6d800b6db6d0249249243fdb6ff81b6db6d82db6db6c;
   0x492400030000c00002400012482490092412480490092012482490092412480490092012090000000db6c005b6db60124924901fedb7f82db6cb6816c925b0;
   0x924000100004000000000000000000000000000000000000000000000000000000000000000000007fe0000124800120000901f0082f81f8241701e0000f0;
   0x2400000000000000080000080010002400080010002400080010002400080010002400000000000016c000000000004000020160000b0090000580c000020].
Definition emoji_rows_44 : list N :=
  [0x580000000000000000000000480000000000000000000000480000000000000000000000000000000000000000000000480000000000;
   0x7c0000003e000003ff6000002400000016000000ff2000002400000012000000ff2000000000000000000000000000002c00000016000000ff2000000000;
   0x2ff000001ff800007fff80002db0000016d800005b6d80002db0000016d800005b6d80002490000012480000492480002db0000016d800005b6d800924900;
   0x3fff00007ffc00007fffc00036db00005b6c00006db6c00036db00001b6c00006db6c0001248000009240000249200003fff00005ffc00007fffc00492480;
   0xffff00007fff0001ffffc000ffff00007ffe0001ffffc000ffff00007ffe0001ffffc000000000000000000000000000ffff00007fff0001ffffc00000000;
   0x1ffffc000ffff0002ffefe0016db6c000b6db0002db6d80016db6c000b6db0002db6d80012492000092490000492480016db6c000b6db0002db6da04924920;
   0x1ffffc000ffff8001ffffc001b6db0000db6d80016db6c001b6db0000db6d80016db6c000924900004924800124924001ffffc000ffff8001fff7c02492490;
   0x1ffffc000ffff8003ffffc001ffefc000ffff8001ffd7c001ffcfc000ffff8001ff97c000000000000000000000000001ffcfc000ffff8003ff87c00400400;
   0x3ffb7c001fffb8003ff6fe0036db6c001b6db0002db6da0036db6c000b6db0002db6da0012492400092490002492480036d96c001b6db0002db25a05b24b20;
   0x1fedbe000fbed8003ffb7c001b6db4000db6d80036db6c001b64b4000d92580036c92c000924900004924800124924001f64bc000d9258003fc92c12f92f90;
   0x3fedbc000fbef8003ffb7c0019249c000c9258003ec92c0019249c000c92580036492c0000000000000000000000000019001c000c1018003e400c03fc3fc0;
   0x3edb6c001b6db0003db6de0036db6c001b6db0002db6da0036db6c001b6db0002db6da0012c92400092590002492480032492c00092590002c924a25b65b64;
   0x1bedbc000df7d8003edbec001bedb4000db6d80036db6c00196594000c93c80032c92c00096590000493c80012c92400196594000492c80032c92c17fd3ff0;
   0x65befb84b2df7d824bffbfc0259e5984924d3c804b2c9ac0219e5900104d3c80412c92c0001c180000083800400c1000019c180000083800010c10c03fc3fc0;
   0x6db6db6cb6db6db05b6db6de6db6db6cb6db6db05b6db6da6db6db6cb6cb6db05b6db6da2492c92492492590492492482492492c92492490492c924a25b65b64;
   0x16db6db85b65b6d02dbedb6c16db6db00b65b6d02db6db6c12592490092492402492492c12492490092492400492492412492490092492400492492c13f93f90;
   0x2df7db80365bed005beff7c02592c90012492400492592c02492490012492400092492c00402400012010000090080000480410012010000090080c02f82f80;
   0x1b6db6802db6db0016db6de01b6db6002db6db0016db6da01b6db6002db6db0016db6da01b2492002d124900164924801b2492002d12490016c925a24924924;
   0x2cb6db00165b6c001bedb7c02cb6db00165b6c001b6db6c02c924900164924001b6492c02c124800164924001b2492402c924800160924001ba492c12492490;
   0x43ff800121ffc0009eff7c00416c800120b640009e5b3c0041248001209240009e4b3c004024000120920000b049000040240001201200009c493c00010000;
   0x1b2db6002d16d80016db6fc01b2db6002d16d80016db6d801b2db0002d16d80016db6d801b25b0002d16c800164b64801b25b0002d12c80016cb6582496c924;
   0x2c16d800160b60001bfdb7c02c06d800160b60001b6db6c02c024800160920001b6496c02c024800160920001b2492402c024000160920001be497c124be490;
   0x402c0001203600009fdbfc0040240001201200009fc9fc0040240001201200009fc9fc004000000120000000b000000040000001200000009fc1fc00036000;
   0x1b25b2002d92c90016db6d801b25b2002d92c90016db6d801b2592002d92c90016db6d801b2492002d924900164924801b2492002d92490016d92d804924920;
   0x2db6db2016db6d801b6db6c02db6db2016db6d801b6db6c02db25b2016d92d801b6c96c02db25b2016d92d801b6c96c02db24b2016d92d801b6c96c02492480;
   0x493c920124b64800925f2400492492012492480092c92400492492012492480092c92400492092012482480096c16c00490092012482480092c12400000000;
   0x1b6db6c02db6db6016db6db01b6db6c02db6db6016db6db01b6db6c02db6db6016db6db01b6cb6c02db65b6016db2db01b6cb6c02db65b6016db2db00924900;
   0x2db6db6016db6db01b6db6c02db6db6016db6db01b6db6c02db65b6016db6db01b6db6c02db65b6016db6db01b6db6c02db65b6016db6db01b6db6c00410400;
   0x492492012c92590096492c00492492012c92590096592c00492492012c925900965b2c00492492012c925900965b2c00492492012c925900965b2c00000000;
   0x1b6db6c02db6db6016db6db01b6db6c02db6db6016db6db01b6db6c02db6db6016db6db01b6db6c02db6db6016db6db01b6db6c02db6db6016db6db00924900;
   0x2db6db6016db6db01b6db6c02db6db6016db6db01b6db6c02db6db6016db6db01b6db6c02db6db6016db6db01b6db6c02db6db6016db6db01b6db6c00410400;
   0x80012012492480092492400080012012492480092492400080012012492480092492400080012012492480092492400080012012492480092492400000000;
   0x16d800000b6000000db0000016d800000b6000000db0000016d800000b6000000db0000016d800000b6000000db0000016d800000000000000000000004800;
   0x1ffc00003ffc00003ff800001ffc00003ffc00003ff800001ffc00003ffc00003ff800001ffc00003ffc00003ff800001ffc00000010000000480000012480;
   0x7ffc00003ffe00003ffc00007ffc00003ffe00003ffc00007ffc00003ffe00003ffc00007ffc00003ffe00003ffc00007ffc00000092000000490000012490;
   0xb6db00005b6c00006db60000b6db00005b6c00006db60000b6db00005b6c00006db60000b6db00005b6c00006db60000b6db00000124900004924000024924;
   0xffff00007ffe0000ffff0000ffff00007ffe0000ffff0000ffff00007ffe0000ffff0000ffff00007ffe0000ffff0000ffff00000492400002492000092490;
   0xffff00007ffe0000ffff0000ffff00007ffe0000ffff0000ffff00007ffe0000ffff0000ffff00007ffe0000ffff0000ffff00000492480002492000092490;
   0xb6db0000db6d00006db60000b6db0000db6d00006db60000b6db0000db6d00006db60000b6db0000db6d00006db60000b6db00000924900004924800124924;
   0xffff00007ffe0000ffff0000ffff00007ffe0000ffff0000ffff00007ffe0000ffff0000ffff00007ffe0000ffff0000ffff00000492480002492000092492;
   0xffff00007ffe0000ffff0000ffff00007ffe0000ffff0000ffff00007ffe0000ffff0000ffff00007ffe0000ffff0000ffff00000490480002492000092010;
   0xb6db0000db6d00006db60000b6db0000db6d00006db60000b6db0000db6d00006db60000b6db0000db6d00006db60000b6db00000924900004924800124924;
   0xffff00007ffe0000ffff0000ffff00007ffe0000ffff0000ffff00007ffe0000ffff0000ffff00007ffe0000ffff0000ffff00002492480012492000092492;
   0xffff00007ffe0000ffff0000ffff00007ffe0000ffff0000ffff00007ffe0000ffff0000ffff00007ffe0000ffff0000ffff00000080080000410000080080;
   0xb6db0000db6d00006db60000b6db0000db6d00006db60000b6db0000db6d00006db60000b6db0000db6d00006db60000b6db0000096590000492c80012c924;
   0xffff00007ffe0000ffff0000ffff00007ffe0000ffff0000ffff00007ffe0000ffff0000ffff00007ffe0000ffff0000ffff00012492c80412c92002496592;
   0xffff00007ffe0000ffff0000ffff00007ffe0000ffff0000ffff00007ffe0000ffff0000ffff00007ffe0000ffff0000ffff00000080080000410000080080;
   0xb6db0000db6d00006db60000b6db0000db6d00006db60000b6db0000db6d00006db60000b6db0000db6d00006db60000b6db00124924900924924024924924;
   0xdf6f00006db60000b6db0000db6d00006cb60000965b0000cb65000024b20000964b0000c924000064b20000964b0000c92500012492480092492002492492;
   0x5f7e00006cb20000967b00004f66000064b20000966b00004d24000024320000866100004c24000064320000866100004c2600012010000090080002480410;
   0xf6db00005b6c00006db60000b6db00005b6c00006db60000b6db00004924000064b20000964900004924000064b20000b64b0002c924900164924001b24924;
   0x5b6e00002db6000016d800005b6c00002496000012c800004924000024900000124800004924000064960000124800004924000160924001b2492002d92c92;
   0x6fe600002590000012480000492600002490000012480000492400002080000010080000010400002080000010080000410600012012000090490002483c10;
   0xb6df00001b6c00002db00000b6da00001b6c00000db00000b6da0000092400000490000012c800001924000004900000b2cb0002d024800160920001b24924;
   0x7b6c000005b0000016c800005b6c00000590000012c800005b6c00000490000012c80000092400000490000002480000792c000160120001b0080002d92490;
   0x12000000480000002400000012000000480000002400000012000000480000002400000012000000480000002400000012000012000000090000002490090;
   0xb6d900000b60000005b00000b6d900000b60000005b00000b6d900000920000004900000b65900000920000004900000b6590002db65b6016d92d801b6c96c;
   0xff6f80016db60000b6db0000ff6f80016cb60000b65b0000ff6f80016cb60000b65b0000ff6f80016cb60000b65b0000ff6f80016d92d801b6c96c02db65b6;
   0xffff0001ffff0001ffff8000ffff0001ffff0001ffff8000ffff0001ffff0001feff8000ffff0001ffff0001feff8000ffff00012482480092412402492592;
   0xb6db0000db6d80036db6c000b6db0000db6d80036db6c000b6db0000db6d80036db6c000b6db0000db6d80036db6c000b6db0002db6db6016db6db01b6db6c;
   0xdb6d80016db6c001b6db4000db6d80016db6c001b6db4000db6d80016db6c001b6db4000db6d80016db6c001b6db4000db6d80016db6db01b6db6c02db6db6;
   0xff7f8001feffc003fe7fc000ff7f8001feffc003fe7fc000ff7f8001feffc003fe7fc000ff7f8001feffc003fe7fc000ff7f80012492480096492c024924b2;
   0x1b6db0002db6d80036db6c001b6db0002db6d80036db6c001b6db0002db6d80036db6c001b6db0002db6d80036db6c001b6db0002db6db6016db6db01b6db6c;
   0x492480012492400092490000492480012492400092490000492480012492400092490000492480012492400092490000492480012492480092492400492492].
Definition emoji_rows_45 : list N :=
  [0x2000000010000000000000000000000010000002400000092000000490000002400000092000;
   0x6c000000b60000005b0000006c00000000016000000090000000f80000016c000000b0000000480000016c00002db6000036d800005b6c00002db6000036d800;
   0x9200000049000000248000009200000000049000000048000001fc000001b4000000d800000024000001fc00003ffe00007ffc00007ffe00003ffe00007ffc00;
   0x9200000049000000248000001200000000049000000048000001fc000001bc000001dc00000000000001bc0000ffff00007ffe00007ffe0000ffff00007ffe00;
   0x6d800000b68000005b0000006d80000000192c00000092000003de0000036c000001b6000002480000032c00006db60000b6db0000db6d00006db60000b6db00;
   0x1200000049000000248000001200000000249000000249000003ef000001b6000002cb00000124000001960000ffff0000ffff00007ffe0000ffff0000ffff00;
   0x1200000009000000248000001200000000249000000048000003ff00000196000003cf00000000000001860000ffff0000ffff00007ffe0000ffff0000ffff00;
   0xd80000016c00000096000000d80000000496c00000092000003df0000016d000001b6000000490000016d00006db60000b6db0000db6d00006db60000b6db00;
   0x4000000120000000800000004000000024b4000000480000016e120005b6080002db04000124000000920000ffff0000ffff00007ffe0000ffff0000ffff00;
   0x4000000020000000100000004000000024900000005800000b7fb00004b24000025920000060000000100000ffff0000ffff00007ffe0000ffff0000ffff00;
   0x30000000580000002c00000030000000db6c000000b2000012db2000196c800004b6400010d90000096c00006db60000b6db0000db6d00006db60000b6db00;
   0x80000002400000010000000080000006db4000000d80000086e000008b6000000da0000086c000000b60000ffff0000ffff00007ffe0000ffff0000ffff00;
   0x80000000400000002000000080000002f90000000f80000087c000004fe000000f800000070000000fe0000ffff0000ffff00007ffe0000ffff0000ffff00;
   0x6c000000b0000000580000006c00000db6c000004b0000006d80000016c000004b0000002d80000016c00006db60000b6db0000db6d00006db60000b6db00;
   0x36c000005b0000002d80000036c00006db4000080d80082c160004100b0000080d80080c060004120b00000ffff0000ffff00007ffe0000ffff0000ffff00;
   0x1fc000001fc000002f8000001fc00002f900020f0f00037c9f00059e0f00024f0f00030c9f00041e0f00000ffff0000ffff00007ffe0000ffff0000ffff00;
   0xd80000096c100000b6080000d80000db6c00416db00025b6d80032db6000496db00024b6d80030db68000064b60000b65b0000cb2500006db60000b6db00;
   0x182c10000c36180014582c00182c10006db40000b6d800005b6800006db00000b6d800005b6800006db0000096490000c925000024b20000f6fb0000df7d00;
   0x1c3c1c003c3e18001e1c3c001c3c1c002f9000003ff800001ffc00003ff800003ff800001ffc00003ff800000200000048240000241200007efa00005ffc00;
   0x365b2c001a2c36002c365800365b2c00db6c00002db6000036d800005b6c00002db6000036d800005b6c00002492000012c80000492400006db6000036d800;
   0x1a6c36002c365800365b2c001a2c36006db40000b6da00005b6c00006db60000b6da00005b6c00006db6000012480000092000002492000036d800001b6c00;
   0x1e3c3e083c3e7c043e7e3c001e3c3e002f900000ffff00007ffe00007ffe0000ffff00007ffe00007ffe000012480000082000002492000017f800000fe000;
   0x2c365b6c165b6c36182c365b2c365b6c00db6c00006db6c000b6db0000db6d80006db6c000b6db0000db6d800005b0000016c80000496400000db0000016d800;
   0x165b6cb61a2c165b2c36596c165b2c36012492000086db60004b6d80000db6c00086db60004b6d80000db6c00002400000092000000490000006c000000b6000;
   0x1e5f243e1e3c127c3c3e003c1e1e003e012492000007ff60000fffc00007ffc00007ff60000fffc00007ffc000024000000120000024b2000002400000012000;
   0x2c365b6c365b2cb61b2c12592c36492c02492480000db6400016db20000b6d00000db6400016db20000b6d00016cb60000b65b0000db6d80016db60000b6db00;
   0x365b6cb61b2c12592c124924364924120124920000165a00000b6c00000d960000165a00000b2c00000d960001f6ff0003ff6f80016ff60001f7ff0003ffef80;
   0x3e4924121f2412483e0000003e0000000124920000060c00000e6c00000c1e0000064c00000e0c00000c1e0000ffff0003ffff8001feff0000ffff0003ffff80;
   0x2db65b6c365b2cb65b2412492d12492402492480000480000000480000086400000480000000480000086400016db6c005b6db6000db6d80016db6c005b6db60;
   0x365b6cb65b2412492c124924164924120124924000004000000060000000000000004000000020000000000001b65b0002db6d80016cb60001b65b0002db6d80;
   0x164924120924124824000000120000000124920000004000000060000000000000004000000000000000000001fe7f8003ff7fc001feff0001fe7f8003ff7fc0;
   0x2492492412492412492412482412482402492480000000000000400000002000000000000000400000002000016cb6c00596596000c92d80016cb6c005b65b60;
   0x400400012582000080010000400400012482000080010000400400000482000000000000000000000000000000000000000000000580002400000012000000;
   0x4be400017ff6000082410000416400012ff2000082410000412400012ff2000000000000000000000000000002c000000be000000ff0002400000012000000;
   0xbffb0002dffd80036db2c000b6db0002db6d80012db2c000b6db0002db6d80012492400092490002492480012db2400097f900005ffc805b0000006d800000;
   0xdfed80037ffec005b6db6000db6d80036db6c00496d920004b6480012db2400092490000492480012492400097c900004be480012ff2402480000092000000;
   0x2fbed80036ff6c00497c920024be4800127d2400493c9200249a480012592400000000000000000000000000003c000000180000007c0002480000012000000;
   0x5b7db6006dbedb00b6db6d005b6db6006db6db00b6db6c005b6db2006db6db00924924000924900024924900965b64000b7d900024be4905b0000002d800000;
   0x2ffff800b7ffed00db6db6002db6d800b6db6d004b6db20025b6c80096d964004924920024924800924924004ffdf20027ffc80097fd6402480000012000000;
   0x3ffff800bffffd005ffdf2002ffff8009ff9fc004ffcf2002ffff80097f964000000000000000000100000000ffcf0000ffff8001ff8f000480000012400000;
   0x5fffb6017ff6fb00b6db6d805b6db6006db6db00b6db6c805b6db6006db6db0092492400492492002492490096d96c001fffb0003ff27900960000000b00000;
   0x2fb6f800bffb7d00db6db6002db6d800b6db6d005b64b6002db25800b6c92c004924920024924800924924005964ba002d925800bfc93c00090000000400000;
   0x3fb6f800ffdb7f0059249e002c925800bec92c0059249a002c925800b6492c00000000000000000000000000190018000c1018003e000c00010000000080000;
   0x5b6db6017db6df00b6db6c005b6db6006db6db00b6db6c005b6db6006db6db00924924004924920024924900b2492c00192490003c92590002c000000160000;
   0x2db6d800b6db6d005b6db6002db6d800b6db6d005924960024924800b2492c0049249200249248009249240059249a0024924800b2492c00012000000090000;
   0xfffd800ffffff0059659e0005b6c800b2cb2c0059249a000592c800b2492c00012480000082400002410000192498000082400032410c00002000000030000;
   0xbefb0007df7df00b6db6c000b6db0006db6db0036db6c000b6db0006db6db0012cb24000965900025b6c90032cb2c000965900075b6df00005b0000002d800;
   0xdb6d00036db6c001b6db00005b6c00036db6c00192490000492400032492c00092490000492400012492400192490000492400032492c00002d80000016c00;
   0x5bec0003eff7c00092c90000492400032592c00092490000492400032492c00002400000010000000080000182410000010000030080c000007c0000007c00;
   0xb6db0007db6dc0016db60000b6db0002db6d80016db60000b6db0002db6d80002492000092490002492480012492000092490007c925c0000c361800145a2c;
   0x5b6c0003edb7c000b6da00005b6c00036db6c00092480000492400032592c0001248000049240001249240009248000049240003a493c000165a2c00182c34;
   0x5bec0003eff7c00012c800000b640003e593c0001248000009240003a593c0000240000001000000018000000240000001000003c183c0001e7e3c001c3e3c;
   0x36d80003db6f80002db0000016d80002db6d80002db0000016d80002db6d80002490000012480002492480002490000012480003c92780002c365800365b2c;
   0xb600003fdbfc00016d800000b6000016db6c00012480000092000016496c0000240000009200001249200000240000009200003e497c00c365b2c105b6d36;
   0x3600001fdbf80000240000001200001fcbf80000240000001200001fc9f80000000000000000000000000000000000000000001fc1f800c3e5c3c1e7f7e3e;
   0x96c90000db6d80012592000092c90000db6d80012592000092c90000db6d80012492000092490000492480012492000092490000d93d801a2c165b2c365b6d;
   0x2db6d80016db6c001b6db0002db6d80016db6c001b25b0002d92d80016c96c001b25b0002d92d80016c96c001b25b0002d92d80016c96c02c36482c165b6db6;
   0x24b64800127f2400492492002492480012c92400492492002492480012c92400490092002482480016c16c00490092002482480012c12403e1e003c1e7f6c7e;
   0x5b6db6006db6db00b6db6c005b6db6006db6db00b6db6c005b6db6006db6db00b6cb6c005b65b6006d92db00b6cb6c005b65b6006d92db05b2c12592db65b6d;
   0x6db6da00b6db6c005b6db6006db6da00b6db6c005b6db6006db6da00b6db6c005b65b6006db6da00b6db6c005b65b6006db6da00b6db6c02c124824365b6db6;
   0x2c92580016492c00492492002c92580016592c00492492002c92580016592c00492492002c92580016592c00492492002c92580016592c03e0000003e5b6c36;
   0x5b6db6006db6db00b6db6c005b6db6006db6db00b6db6c005b6db6006db6db00b6db6c005b6db6006db6db00b6db6c005b6db6006db6db05b2412496db65b6d;
   0x6db6da00b6db6c005b6db6006db6da00b6db6c005b6db6006db6da00b6db6c005b6db6006db6da00b6db6c005b6db6006db6da00b6db6c02c124824365b6db6;
   0x2492480012492400080010002492480012492400080010002492480012492400080010002492480012492400080010002492480012492400000000012492412].
Definition emoji_rows_46 : list N :=
  [0x80000002c00000000000000080000002c00000000000000000000002400000000000000480000002c000800100004004000124820000800100;
   0x80580000006c800100b6c00080580000006c800100b6c00080000000002400010092000080580000017c800101fec02010080002482000092490002cb6180;
   0x180ff000001ffc00101ffe00180ff000001ff800101ffe00180000000000000010000000180ff000001ffc00107ffe00092000000490000012480002dfe180;
   0x345b6c00186db6002cb6db00345b6c00186db6002cb6db0034492400182492002c124900345b6c00186db6002cb6db04924920004924800124924005b7fb60;
   0x10486db60000b6db2024db6c10486db60000b6db2024db6c10482492000012482024492410487ffe0000ffff2024fffe02492480012492400492492006dbedb0;
   0x3048fffe0000ffff2c04fffe3048fffe0000ffff2c04ffee30480000000000002c0400003048fffe0000ffff2c04ffee00492400002492000002400006ffffb0;
   0x6c26db6d001b6db64b65b6db6c26db6d001b6db64b65b6db6c264924001924924b6492496c26db6d001b6db64b65b6cb04b64b20024b6480096492400dffff60;
   0x32496db6002db6db2436db6c32496db6002db6cb2436db643249249200249248243649243249fff6002fffcb2437ffe602492490012492400492492016ffefb0;
   0x1249fff6002ffe4b21b3ffe61249ff92002ffe4b21b3ff26124800000000000021b000001249ff82002ffe0321b3ff0602490480012492000092010007ffeff0;
   0x2db2db6d001b6db6196db6db2db2db6c001b6db6196db6db2db2492400192492196c92492db2db25001b6c92196db6490592492002c92580092492400dfedbe0;
   0x16416db60005b6db0da2db6c16416c92000592490da2d92416412492000492480da249241641e492000592480da3d92402492490012492400492492007db6df0;
   0x241ec92000496590413c92c0241a492000492480413c92402400410000402080410080002418410000400080413880002000080010000000400012007fb6df0;
   0x32db6c00596db60025b6db0032db6c00596db60025b6db0032492c00592c92002496590032c92c00592c920025965905924920024924800b24924005b6dbe0;
   0x4b6dbe0360b6db0016db6c004b2c92036096590016c92c00492c92036096580012492c004b2c92036096580017c92c02592c80012492000492492007df6db0;
   0x43a492016096490007c92c00432492016012480007c924004004100160020800000800004384100160000800078800021c3c80002c3000041e792007ff7de0;
   0x6db6c16d86db6002db6db0006db6c16d82db6002db6db0002492416d82492002492490006c92416d82492002d924900924900004924000124924005b6db20;
   0x436db6096c36db0016db6c00432492096c12c90016c92400412492096c12480012492400432492096c1248001fc92400492480002492000092490000db6d80;
   0x496492090012c9001fc9240049249209001248001fc924004000800900004000000100004d008009000040001fc10000010000000080000082410000dbef00;
   0x5b6c161b2db6006db6db00005b6c161b2db6006db6db00004924161b2492002496d900004924161b2492006d92d900924800004924000125924000b6db00;
   0x402db6082116da00b6db6c004025b2082112c800b6cb64004024920821124800924b64004024920821124800bfcb6400092400002590000092c900005bec00;
   0x4005b0000012d8019fe9660040049000001248019fc9240040049000000240000001200040049000000240019fe120000100000000800000824100001bec00;
   0xb6c001b05b00b6db6db00000b64001b05b00b6db6db00000920001b04900164924900000920001b04900b6db24b0012480000092000012492400016d800;
   0x4005b0000c02c02db6db6c00400090000c02400db6d92c00400080000c02400492492400400080000c02402fbff92e00012000000480000092490000036000;
   0x80000402403ffffd2e00000080000402403ffff92e00000000000400000000480400000000000400003ffffc0e00000000000000000090090000036000;
   0x2db6c00016db65b6db6db0002db6c00016db65b6db6db0002d92c00016c964925b65b0002d92c00016c965b6db65b05b25b2002d92d80036cb6c005b6db20;
   0x16db60001b6db2db6db6c00016c960001b65b2db6d92c00016c960001b65b2492d92c00016c960001b65b3ffed92c02d92d80036c96c005b25b6002db6d80;
   0x12492000492493ff2492c00012492000492493ff2492c00012412000492490002492c00012412000492093ff2482c024824800124124004925920024b6480;
   0x2db6c00036db61b65b6db0002db6c00036db61b65b6db0002db6c00036db60925b6db0002db6c00036db61b65b6db05b6db6006db6db00b6db6c005b6db60;
   0x36db60005b6db0d82db6c00036db60005b6db0d82db6c00036db60005b6db0482db6c00036db60005b6db0f82db6c06db6da0036db6c005b6db6006db6da0;
   0x12492000492490782c92400012492000492490782c92400012492000492490002c92400012492000492490782c92402c925800124924005924b2002c92580;
   0x2db6c00036db60305b6db0002db6c00036db60305b6db0002db6c00036db60105b6db0002db6c00036db60305b6db05b6db6006db6db00b6db6c005b6db60;
   0x12492000092480002492400012492000092480002492400012492000092480002492400012492000092480002492402492480012492400492492002492480;
   0x82000000000000000000000000000000000000000000000000000000000000000000000000000000000000000000000000000000000000000010000000480;
   0x24365824004300000000000000000000005b24000000000000000000000004900000000000024000001804800000124800100924001805b0000017d800101fec;
   0x925b6c92006180000016580000000000002492000000000000000000000012482000000000092000002c12480010092400182492002c1ff800101ffc00183ffe;
   0x127ffe9200608000003e780002492000002492000000000000000000000012480c0000000000000000241248001009240048249200243fff00107ffe00487ffe;
   0x24b6db2400d96080006db60005b2492002db2480000000000010000000012492080000000012480010482492002092492026492410487ffe0020ffff2026ffff;
   0x92db6d920064b2c000b6db00024924800124920004924920005b00000000924804000000000920005864924900104924304924925864ffff0012ffff3049fffe;
   0x127ffc920064b64024ffff2402492400002492000000000003ff00000000924801800000000000004824924800124924064924824825ffff0017fffe0649fffe;
   0x24b6db2400c92d80496db6492d92492000496c00492492492db6d90000092492016400000012480032492492002c924925b649243249fff6006fffdf25b7ffef;
   0x125b6c920064b6c024b6db2412492490000490002492492436db6d80000492480096000000492400112c92490012492432592492112dffdf0037ff6f325bffb6;
   0x25ffc100064b24024bffd241249240000049000200000043fffff8000049248009f0000004924000920920000124800124924020921ffdf0017ff6e124bffb6;
   0x24b6d92400c96d80496db6496d924924001b6c00592c92496db6db6000592492006d800000b6db0016c12492002492490db2492416c3edb60025b6db0db3db6d;
   0x124b64920064b6c02496d92436c924920024900024b6592416db6db00064924800b6c000005b24000120924800124924024124920121b6db0012db6c0243edb6;
   0x603c430006492402497f924124924900024900004beff20004ffff000fc924800ffe000001f00000020861800100c0c00490c180021feff0010df7c004befbe;
   0x2c92496400db6db0492db2492db6d924005b6c004b6db6492c06db6c02d92490186db0000036480000492c92036c96590016492c004bedbe036cb6db0017df7d;
   0x12400492006db6582492c92416c924900024120024b6db2436036db0036c92482c36d800001804000024924804b04924004924920027b6db04b05b6c004fedb6;
   0x400006cb24824824124024924800120020000ffff003f0127fe07ff92403c1ff800000024000020800004920000004900000027f6db04925b6c004fedb6;
   0x6490092400db6c964924924905b6d92002c00580496db6492d80036c16db2490580db2000012d80000412492096c12c900124964004bedb6096cb6db003fdb6d;
   0x12400492016db24b24b2496402d924800100024024b6db2436c000b61b6d92402c06d92000012400002492480992492400492492002cb6db09925b6c005fedb6;
   0x124924024324c64004924800100004000bfff003fe0001e1ffff2002003c02000092000002000000c120000004904900020f6db0c125b6c005feffe;
   0x6c80012c02db64904b64965900b6d90002c00180496db6c92db60b6436db6480000192c00016c800004025b2082112d800b24b6400402db6082136db00bfdb6d;
   0xb2000096032db2582492492400592400010000402496d92416db6db05b6db2000000c92000090000002012c80012096400492492002017f800121bec03dfedb6;
   0x100000020124b258008001000009240001000040041ff8201ffffff07ffff8000180010000080400002000400012010002492002002007f800120be007dffdbe;
   0x2400002406db6db6496412490016c80002c00180492db2590db6db60b6db6c00030016400012580000400090000c024024b24924004005b0000c02c02fbffb6f;
   0x100000120925b6d824900b2400092000010002402492c92406db6db05b6db0000580092000002c00000002400000012012492492000002c000000360bfdffdbe;
   0x2400490092c00000080010000092000010002402002400403ffffc07fffe0000780090400017c00000092080000480412492412000093c800004b647fff6db6;
   0x25b00b6436d80000496012490006c00002c005804924924801b6db40b6db60000300124b0016d80000036c960005b65b2496d92c00036db60005b6db3ffedb6c;
   0x16d804925960000024800124000300000120020024924924005b6d805b6d800001800824001b60000005b65b0002d92c124b6c960005b6db0002db6c3ffb6db6;
   0x24804904900000000000000000100000020120000000000000ffc007fff000000000020001f000000049248000249240243649200049248000249641fe165b2;
   0x2db01b64b60000000800004000000000005b6c00000000000002c80036db00000000005800b6c90000036db60005b6db0482db6c00036db60005b6db0f82db6c;
   0x96d804924800000000000000000000000024900000000000000000001b6c000000000020004924000005b6db0002db6c02036db60005b6db0002db6c07836db6;
   0x924804924800000000000000000000000004900000000000000000000bf000000000000000492400000492480002c92402016492000492480002c92402016492;
   0x2490092410000000000000000000000000012000000000000000000002c000000000000000124800000124920004924900024924000124920004924900024924].
Definition emoji_rows_47 : list N :=
  [0x2492492400000000000000000000000000000000000000000000000000000000000000000000000000000000000000000000000000000000;
   0x80003ffffffc10080000000000000000000000000000000000000000000000000002000000000000000010080000000000000000000000010000;
   0x124800000360005b6db6db2db6000002d80d80016012400090090002480480012012400000002402480480016016c02db6000002d80d800800000800024000;
   0x492400000480006db6db6c36da00000b6c16c004900920024824800924124004900920000000120924124005b01b6036da00000b6c16c02000000410010090;
   0x490007ffffffeffff00000ffc3ff80492492002482490092412480492492000000010092412400ffe7f30fffe00000ffc3ff80000000033c1019e;
   0x924900001b6c00db6db6db6db6480036db6db41b6db6d82492492416db6db01b6cb6d800b00b2412d92d901b6db6586db6000036db2db4090000486d80036c;
   0x492480002490006c82c16cb6db24805b6db6d82492492412492490492492482492492402d82d80096cb6482db6db2cb6da00005b6d96d80090090036c101b6;
   0x2492007c00003e3ffe00807ffffffc2492492412492490492492482492492407fc7fe0492492483ffff9243ffc00007fff87fc21f01f043f8101fc;
   0x924900005b6c00d924925b6db60120b6db6db65b6db6db24924924b6db6db65b6db6db0db6db6096db6db25b6db64b6db60000b6db0db64b6cb6c82d82c16c;
   0x492480012490006000000c36d800105b6d96d82492492412492492492492492492492416db6db04b6db6c86db6db2c36d800005b6d86db0db6db60160b60b0;
   0x82000010490406000000e1ff800007fff97c8249249241249249249249248249249241ffffff0497ffe487fffff3e1ff800007fffc3ff0ffffff0000d2000;
   0x92490006cb65b0d924924b0db24120b6db25b25b6db6db24924924b6db6db65b6db6db2db6db6c96db6db25b6db6db0db24120b6db45b61b6db6d80016d800;
   0x492480092482406000000c06cb61b05b6d92482492492412492492492492482492492436db6db04b6db6d86db6db6c06cb61b05b6d86db2db6db6c000be000;
   0x10000092012486000000e03cfe7f849249008249249241249249049249248249249243ffffff8497ffec87ffffffc03cfe7f87ffc1ffe3ffffffc000be000;
   0x92490036d92db6d924924b0096db6c924924925b6db6d82492492436db6db65b6db6d82db6db6c16db6db25b6db6da0096db6c36d82db61b6db6d80012c800;
   0x492400492496486000000c001b6db6492492482492492412492490492492482492492416dbedb00b6db6c82db6db6c001b6db65b6cb6d82db6db6c000b6000;
   0x10000492002487800000e001ffffe00009008249249241249249009249248249249241ff9fff0097ffe483cfffffc001ffffe1ff8fff83ffffffc000be000;
   0x12480036d92db6d924925b0036db6c124924921b6db6d82492492416db6db01b6db6d82db6db6016db6db0196db6d80036db6c36d86db41b6db6d80016d800;
   0x92400092496486c00002c001b6db6092492480492492012492490092492480492492016db6db0096db6c80cb6db68001b6db61b6c36d80db6db6800592c00;
   0x10000092402407c00003e101ffffe0000900804924920024924900924924004924920024bfff0092ff6400cbfffe0001ffffe0ffc1ff80ffffff000492400;
   0x12480006cb65b0db24925b2416db6c06db24920b6db6c00492492006db6db00b6db6c00496db6002db6d90092db6d00016db6c06db2db00b6db6d005b24b60;
   0x920000105b2406d80016c025b6db6036db24004924920024924800124924004924920124b6d80016db6402496db60001b6db6036d96c005b6db6006c925b0;
   0x2000010490007f8001fe024ffffc03ffb00000924900004924800124924000924900124bff800125b2400497ffc0000ffffc03ff87c007ffffe01e4924b0;
   0x124800005b6c00db6492db0096db6c02db6490016db6c00092490002db6d80016db6c02496db00025b6c80092db6c00006db6c02db0d80036db6c00c92c928;
   0x92000002492006db00b6c004b6db0016db24000924900004924000024920000924900124b6c000025b20004b6db0000036db0016d960001b6db00024be490;
   0x92000002490007ff00ffe0003fff0003ff00000124800000924000024920000124800124bfc000024920000bffc000003fff0003e1e0000ffff00024be490;
   0x124800001b6c00db6cb6db0002db60005b6490002db00000124800001b6c00002db0002496d80000092400012db6000002db60005b2c00006db60004b2cb20;
   0x92400000490006db6db6c00016d80000db24000124800000920000004900000124800124b6000000490000016d80000016d80000c30000036d80002fbef90;
   0x92000000480007ffffffe00003f800005800000024000000100000004800000024000024be000000080000003c00000003f80000400000017f80002fbef90;
   0x24000000360005b6db6db00005b0000010410000080000002400000010000000080000482c000000100000001800000005b00000000000005b00004b2cb20;
   0x80002db6db6c00000400000000000000000000000000000000000000000002000000000000000000000000000400000000000002c00002fbef90;
   0x492492000000000000000000000000000000000000000000000000000000000000000000000000000000000000000000000000000410400;
   0x24000000100000000800000020000000100000000000000000000000800000020000000000000120000000000000000000000800000000000000;
   0x92000000080000002c00000030000000480000002000000010000000400000090000000000000490000000080000000000002400000000002000;
   0x6c00000090000000480000000000000000000002400000000000000000000492000000080000000000002400000000003000;
   0x92490000080000000092000002db0000016c000000b6000002480000012400002db00000924800000100001b6d80000016080036d800004b00000000005800;
   0x2492480002000000002490000036d000005b6000002490000012400000092000016c000004920000000800024924000000820005b6c00002400000002006000;
   0x40000003ed800004920000024900000000000000000000124800000000000004800024924800000e300049240000240000000700e020;
   0x492492002400010000492000006db0000036d800005b6400002490000012480002db60000924800000b60005b6db60020165800364800005960000005b2c160;
   0x12492490010000000002490000036d800001b6c000024900000124800000920000b6db00024924000004900024924900301b60101a00000000f0580002db60b0;
   0x1ed8000009240000249000001000000000000009249000000000000049000249248003e1b30b00900000001fbff0000ff01c0;
   0x2492492402000000000492400002db6000036db00005b6c00002492000012480036db68024924800001b60005b6db0002db6db6006000000036db6c000b60340;
   0x12492492080000000002092000032db0000496c00002492000010480000002400186cb0012492000002490002492400416d96d800300000005ffffe000080180;
   0x4104000000000000000000000005b00000024000000120000000000000000000924100000000000024900024924004064927800100000001fffff030000780;
   0x25b2cb24100000000000024800000360000005b0000002d80000012000000490032db2c024924920005b6c005b6d805805924b0002c00000016db6d82c000300;
   0x12cb65920000100000000120000005b0000002d800000120000000900000024005baf96012492400002492002492002402c02c000160000000fffffc36000580;
   0xc105800000100000000000000005b000000248000001200000000000000000043a792000000000002492000490012401c03c000120920000fffffc1f000380;
   0x2492492410002400002002480092036c004805b0012402d800900124004804901b2db2d82492402400db6c000b6402d805925b0000d86c00016db6db05800360;
   0x12492492400010000092012002db05b0016c82d80492012402490490012402480d92c160124924900124920000800924064925800068a00000fffffc02c001b0;
   0x10000000000006db65b009248248049241240000000000000000048249200000000001249200000009241e4125f00924100000fffffe01c000f0;
   0x2492492490092490092492482db6cb6c16db65b40b6db2d824924924124924901b6db6d82492480002db6d80000016db2db25b6c36d82000016db6db0180006c;
   0x12492490400492482492492436db6db41b6db6d82492492412492490092492482db6db6c02490000012492400000092412492c925b6c100001fffffe00c00016;
   0x492400000000036db6db40924924824924924000000000000000025b6db2400000000012492000010092400493c000000004800fffffe01c00000;
   0x492492090092480492492486db6db6c36db6db65b6db6d824924924124924925b6db6da0492492002db6d80002c36db00b6d80000006cb6016db6db01804800;
   0x2492480480492002492492436db6db65b6db6d82492492412492490092492486dfeff6c124924800124924000900924004b6c000000924000fffffc02c16c00;
   0x9200040000003fdb6db64b24924824924924020000000100000025f25f2400000000012492000090092400cf6e000000004000fffffc0781ff80;
   0x124920124924804b2492486db6db6c36db6db65b6db6d825924924124924925b6496db0492490002db6d80036c16db00b65b0000000030006db6da0d82db60;
   0x480092492002492492436db6db65b6db6d82592492412492492092492486d924b6c12492400012492000490092400d80d8000000018003ffffc060b05a0;
   0x92000092400037fffdb6096db2482492492400492000012480002492492400000000002492000490092400f0078000000008003ffffc020f00c0;
   0x12002492480092d92482db6db6c16db6db60b6db6d824b64924124924925b6db6da04924800005b6c000b6c06d801b00100000000b6002db6d800160040;
   0x90000082400492492416db6db60b6db6d80492492402492490092492482db6db6c02490000002490000490012000c0008000000058001fffe0001a0000;
   0x2db6d90012492400092490000000000000000002492492400000000000490000090000001800000000000000007ffe0000c0000;
   0x4000000000124920000b6db00025b6c80012db20000924900004924001b6cb6d800920000000920000160000001800000000000000005b6c000000000;
   0x92000000480000000000000000000000000000490012000000000000000000080000000000000000000000000480000000000].
Definition emoji_rows_48 : list N :=
  [0x92000000000000000000000000000000000000000000000000000000000000000000000000000000000000000010000000000000000000000000000000000;
   0x36d80000000000012490002db6db6c000000900000000000000000000000000000000000000000000300000000028000124800160000000004000000004800;
   0x5b6c000000000005925800124924920000004800000000000000000000000000000000000000000007800000000300000924005b0080000006400000012400;
   0x592c000000000004800800124924820000000000000000000000000000000000000000000000000007800000820fe0000000007b01f0000012480000000000;
   0x300a00000000000b6496006db65b64005904900000000000000000000000000000000004924920000b6000014416d000124800b2c36c36002db20000124900;
   0x400400000000000592580092492482002482400000000000000000000000000000000012492490003ff00000961830001b68004165965b0496d92002492480;
   0x400400000000000480080012490492002480002490092412480492492012480010080012492492007ff80000b0003000092000606786180490192000000000;
   0x2db6db6c12db6d900b6496006db6cb2c02c964805b6496db6db25b6cb6d92db6492492492492492400db6c00016c005800124800b0c30530012cb24024924920;
   0x36db6db60924924805925800924904120124920024924924b249249649249248249249249249249201e03e0000b0016000092000506586180490192012492490;
   0xb6db6db60924924004924800124904120124800024900924124804924920024820000004fffffffe00001e0000b603e000010000706783180590196000000000;
   0x6db6db6c16db6db00b6db6006db6c96c06db2400496492cb6db24b6cb2d92496492492496db6db6d00002c00016d16c00012c800305305941b6c96d824924924;
   0xb6db6db60924924805b6d800824920920924920024924b64b2d92596492492c824924924fffffffe00003e000092180000492400186182980c90196012492492;
   0xb6db6db60924924004924800024900020924000024900924124804924920024824900124fffffffe00003c0000001800000920001861838c0400002000000000;
   0x6db6db6c16db6db00b6db60064b6492c32d924804b64965b6db24b6cb6d924b6492492496db6db6c00016c00180190180096d90016c165965b2492d824924924;
   0xb6d92db60924924805b6db00904920924924924024924924b6d925b64924924824924924924924920007f0000c031838025924800b60b60a2c00002c12492492;
   0xb6d80db60924924000924900104900124920024824900924124804b2492002482490012412492492003fe0000c060ff00008200001003e0e2400002c00000000;
   0x6db25b6c16db6db0096db6406cb6492cb64924964b6492db6db24b6cb6d92596492492c924924924005b00000b0c06c00492592010002c061b2492d804924924;
   0xb6d92db60924924804b6db2092092092092492c924924964b6d925b6492492482492492490402492017c0000071e0300024964905b20000b25b00b6402492490;
   0xf6db6db60924924004924900120920920100124824900924124804b249200248249001241040248201f0000003980100000960007ffc80002080030400000000;
   0x6db6db6d16db6db00b6db6c06c96d96c02492c964b64925b6db24b6cb6d925b6492492c925b6db6402c00000032c02000496c924b6db6c00196492c804924920;
   0xbffffffe092492480496db6092092092012496c824924b64b2d92596492492c8249249249249249201e0000001b00920025924904b6db6c00180010002492480;
   0xbffffffe092492400096db601208209200009240249009241248049249200248209000041000000201e0020007fe0b60001800000005fff80180010000000000;
   0x6db6db6c12492490036db6d86d925b6c12492cb04924924b6db24b6cb2492496492492492492492402c00d000b6c16c00496592000002db61b2592c800924900;
   0xb6db6db60924924000b6db60920024920924964024924924b249249649249248249249249249249201e03e0000e0036012592c90000002db05b2c96000482400;
   0xb6db6db6092492400096db6012000012000492402490092436d80db649201248249009241249249200fdfe0004f00360000b60000f20001f0482432000000000;
   0x6db6db6c12492490016db6c06d92492c124b25805b6496d96db24b6c924924924924924924924924005b6c000b6d06c02496c92016db0002036cb6c000000024;
   0xb6db6db6092492480096096092490002080092006db24b6cb6d92db64924924b2492492412492490002ff00004f20b60124924900b6db00004b65b2000000010;
   0xb6db6db6092492480096096012490002000092006db24b6cb6d92db64924924924924924000000000007800000e0082000010000017ffe000010080000000000;
   0x6db6db6c124b6492016c16c06db6cb2412002c005b6c96db6db25b6cb6d92db65b6c96db00000000000b00000060104004924920000b6d00006d960000000024;
   0xb6db6db6492492480016016012492492000010006db25b6cb6d92db65b6496db24924924000000000007800000e00000024924800000b6000002400000000010;
   0x36db6db6492492480016016012492490000000006db24b6cb6d92db64924924824924924000000000007800000e0000000000000000002000002400000000000;
   0x24924924124924920004004024924924000000004924924824924924124924924924924800000000000300000060000000924900000000000000000000000000;
   0x400000000000000000000000000000000000000000000000000000482492080000000000000000000000000000000000000000000480000492492412492490;
   0xf80000000180000000000000000000000000000000000000400000787ffe0f0002000000000000000000000000000000000000002490000ffffffc3ffffffe;
   0x5b00000000360000924924824924924124924900124b64000800100b2db6d960024924800924924000000000000000000924900005b2c80196492db6db65b6c;
   0x6d800000025920024924924124924900924924800b64900004000005b6db6db0012492000492492000006d800000b6c00492480012482403cb249feffc925fe;
   0x7f800000001800000000000000000101d000000009249001f7ffcf07fffc30f0002000000000000000016d800001b6c00000000012480407cf001feff0000fe;
   0x2db60000064924b0492492482492496c164924920124b6c02db6db6cb6db6db6012492480092492400002db6000036db0492492006db24b0d96c92db6c92496d;
   0x36db00000b2492d024924924124924b00b2492480092490036db6db64b6db2cb0092492000492492000036db00005b6c02492490092580487cf249fefe4924be;
   0x3fff00000900004000900000000900900f00000000b649003fffedbe5b6fc30f00024900000924900124b6db0092db6c00000080092480087cf001fef800001e;
   0x6db6c900164924b04b6492482496496416c924920124b6c06db6cb2cb6db6db6092492480092492406db6db60b6db6db2492492416db2490d96c92db6c92492d;
   0xb6db6d800800005025b24924124b25900b2492480092490036db2cb64b6d964b04924920004924920b6db6db05b6db6c12492490092582487cf249fef2492496;
   0xffffff8008000040009000000009248003a000000092490032df24be7fffbefb04904900000924900b6db6db0492db6c00000490492480087cf001fef0000486;
   0x6db6db40164924b04b6492482496cb6412c92492096cb6c86db6cb2cb6db6db6092492480092492436db6db61b6db6db2492492436db2496d96c92db64924925;
   0x36db6d800800925025b2492412596590096492483c92493c36db24964924924804924920004924924925b6db2492db6c12492492492492487db6dbfe80012496;
   0x17ffff8008000040009009000008248001e000007c10083e36df259e0000000000924900000924904925b6db2492492c00000490492410007ffffffe00010492;
   0x5b6db00164924b04b6496c824b65b2412d92c92db24925b6492492c92db2d92096db6c800924924b6db6db61b6db6db24900924b6d82496db6db6db2492c925;
   0x2db6d800824925025b24b2412592c90096496487db6db7e32492496496d964804924920004924924924b6db24924924124804924b6412497c92492e0003e492;
   0xfffc0008249240009009000048040000781e007ff7ebfe305b0c060164960000924900000924904924924b2492492400400000492012487c92493e0003e002;
   0xb6d800164924b04b6496c824b2492412596d92db24925b64b6db2492d92c92096db6c800924924b6db6db61b6db6db24900924b2482db6d924925b2492c925;
   0x5b6c000824925025b24b2412c92490092cb6c87c92493c32592c964964964804924920004924924924924b2492492412482492492492497c92492e00012492;
   0x7ff400082492400093c90002400000003cf7c03c00003c30580c060020120000000000000000004924924b2492492412480000400092487c00000e00000002;
   0xb6db00164924b04b65b6c825924924125b65920924925864b2592492592c92092492480092492436db6db61b6db6db2492492432496db6d924925b64924925;
   0x5b64000800005025b6cb2412c92490092d92c80c92493032592c96492c964804924920004924924924924b2492492412492490492092487c92492ef2492496;
   0x7f0480082492400093c90002400000000f83c00c00003030080c06002c120000924900000000000924924b2492492412400000000092487c00000ef2400006;
   0xb60b00164924b04b65b6c825924924124b25b20924925864965924925b2c92092492482492492436db6db61b6db6db2492492412496db0d924925b6c92492d;
   0x5b00800800005025b6cb2416492490092492d80c924930324b2c96492c964804924920124924920924924b2492492412492490090092487c92492ef249249e;
   0x80080080000400093c90012000000000000780c000030300b0c060004120000924900000000000924924b2492492400000000080092407c00000efe00003e;
   0x60165b24b04b65b6c82c924924124924b20924925864965924924b2c92092492482492492436db6db61b6db6db0492492006496db0d924925b6c92496d;
   0x100824805025b6cb2416492490092492580c924930324b2c96492596480492492012492492092492480492492402492480010092407c92492efe4924fe;
   0x10080000400092c90012000000000000580c00003030010006000000000000000000000000092492480492492400000000010092007c00000effc005fe;
   0x416db6db00924924824924924124924900b6db6d02492492c12492492092492482492492400000000000000000092490000596c805b24925b6db65b6c;
   0x20b6db6d000000000000000000000000007ffffe03ffffffc092492480492492012492490000000000000000000092000002490007fb6db7c3ffffffe;
   0x12492400000000000000000000000000092490012492490000000000000000000000000000000000000000000000000000000002492492012492490].
Definition emoji_rows_49 : list N :=
  [0x492490000000000000000000492492002492490092492400000000016db6d900924924005b6db60124924800000924800000000000000000000000000024000;
   0x124924800000800004924920124924901b6db6d82db6db60000000001ffffff80db6db601ffffff00924924000024924000000020000024000000000000b6000;
   0x400010180000492492c12492490192492582492492c000000003924927824924924324924b84924924000020000000000020000064000000100000ff000;
   0x24924b00020360800b6db6d82492492c32492496592492580000000032492496592492586492492cb24924b0002592480000002400000d90000082480036d800;
   0x124925800305a0c00492492c12492492492492482492492c000820006924925e2492492c3249249e4924924800124924000000120000164800004824005b6c00;
   0xf87f3e00000002c10492492412492582092492c000000006124925c209249243249249e400000480002000000000012000033c800020804007ffc00;
   0x2492490016cb65b00924925a25b6db6c32db6db64b6db6da2492492c32db6db64b6db6da65b6db6c924925b6012592480000012400006592000410080036da00;
   0x24924801b6db2d80492492c124924924b6db6d825b6db6c124924926b6db6fe2592496c37cb2dbe492492c300924924000000920000b24800024004005b6c00;
   0x24924801ffffff80492492c12492492492492582492492c100000026ffffffc24924924364b0c3e492492c200020920000000920001924800104004007ffc00;
   0x492490036db6db60b6db6d82492496c36db6db64b6db6da6492492c36db6db64b6db6da6d965b6c924925b6012592480000092400032492002080000036da00;
   0x24924805b6db6d80492492c124924924b2492582492496c924924926b6db6fe2492496c36cb2cbe4924925804924924000004920005924800120004005b6c00;
   0x7ffffffc2492492012492492492492582492492c900000026ffffffc24924924365960fe492492400492092000000492000cf24000820104001ffc00;
   0x5b6d900b6db6db65b6db6d82492496c36db6db64b6db6da6492492c36db6db64b6492da6cb2d96c924925b6012492480000492400196490010402180016d800;
   0x2db6c805800000a24924920124924924b2492582492496c924924926b6db6fe2492496c365965be4924924a0492492400002492002c924000900120000b6000;
   0x24924007000000e2492492012492492492492582492492c900000026ffffffc24800124364924be492492c30092492000002492002492000410082000012000;
   0x4924900b2492496492496d82492496c36db6db64b6db6da6492492c36db6db64b6492da6d965b6c924925b6012492480002492400c92480082010c00002c000;
   0x2db6c805800000b24924920124924924b2492582492496c924924926b6db6fe2492496c36cb2cbe492492d80492492400012412016492000480090000012000;
   0x24924007000000f2492492012492492492492582492492c900000026ffffffc24800124364924be492492482db2492000012012013490002080410000010000;
   0x4924900b24924965b6db6d82492496c36db6db64b6db6da6492492c36db6db64b6db6da6cb2d96c924925b05b6c92480012482406592400410086000002c000;
   0x24924805800000b2db6db68124924924b2492582492496c924924926b6db6fe2492496c365965be492492482db24924000920120b2490002080480000010000;
   0x24924007000000e2492497812492492492492582492492c900000026ffffffc24924924365960fe492492482db2492000090012092480002082080000010000;
   0x4924900324924965b6db6d82492496c36db6db64b6db6da6492492c36db6db64b6db6da6d965b6c924925b25b6db6c80092402432492000406430000002c000;
   0x24924805b6db6d82492496c124924924b2492582492496c924924926b6db6fe2492496c36cb2cbe492492db2db2492400490012592480002012400000010000;
   0x24924001ffffff80000017c12492492492492582492492c924924926ffffffc2492492436cb0c3e4924925825b24920004900120d2400002000400000010000;
   0x5b6db2016db6db0492492d82492496c36db6db64b6db6da6db6db6c36db6db64b6db6da2db6db6c924925b00b6db6c80492492416490000400180000002c000;
   0x24924900b6db6d82492496c124924920b2492582492496c36db6db60b6db6fe2492496c165965be492492480492492402492492492400002002000000010000;
   0x100fffffe00000017c02492492092492580492492c000120000ffffffc04924924065960fe092492480000000002492492092000000002000000010000;
   0x492492c06db6da0492492d80492496c16db6db60b6db6da0000000016db6db60b6db6da0cb2d96c124925b6012492482492492412480000092c000000000000;
   0x2492496016db6c02492496c024924920b2492580492496c000000000b6db6fe0492496c06cb2cbe092492c30492492412492492092000000490000000010000;
   0x10007ffe002492497802492490012492580492492c0000000003fffffc04924924064b0c3e092492c20000000012492492010000000080000000036000;
   0x4924924005b6c005b6db6d80592496c02db6db4036db6d80000000002db6db4036db6d805965b6c024925b6012492482492492402400000000000000006c000;
   0x480000000000000492490012492480092492000000000012492480092492002090410010000480000000000000000000000000000000000012000;
   0x0;
   0xb0000000d80000000000000006c00000000000000000000002c000000b6000000580000000000000000000002000000492480000000000000000d80c924924;
   0xd80000016c00000000000000092000000000000000000000012000000490000006c0000000000008000000009000000249200000000000000001fc16492490;
   0xfd278001fc92400092490000012000000000000000000000092000000480000007e0000000000018000000000000000249200000000000000003fc12400000;
   0x5b6db6002db6db00b6db6c00006c00000000000000000000016c800000b6000002db0000000000036400000092002c005b2480012492490000006da6d924924;
   0x2db2db0096cb2480492592000092000000000000492492000492400000490000036d800000000005920000004100b60024920005ffffff800000ffc32492490;
   0x125d0000093cf248049249200009200000000000000000000049000000048000003ffc00160000005800000000805b60000920006924924e00000ffe12492490;
   0x2db6492416db6db01b6db6d800b6db00000000004925924901b64900004b6480016db6002d90000036496c900900b6c004924800b2492496000016db2c96db64;
   0x125b2492092c92482492c92400492400000000002492c924024924800024920000b6db00364900005924b6d80082db60024920004924924b00001ffc12492490;
   0x125d0002093cd2482492c92400492400000000002000400402480490002492000007e0003649200048003ffc0002db60124924104000000300001ffc02492480;
   0x2db6c92416db6db01b6db6d82496d924924924b65924b2490d924b60005b6c000005b0006db6d900b6496db60925b6c86db6db6c92492492000016da04925b64;
   0x125b2492092c92482db2c92412492492492492082492c924024924b0000490000006c00036c924804924b6db0012db60b6d925b64924924b00000bfc06492490;
   0x125d2010093cd2487ffec924000920024800020004024020020024b0000490000007e00036c9249048003fff00105b20820800b640049203000003fc06490000;
   0x2db6592416db6db0db6db6d86492c924124924804b24b2490c92db60000b60000005b0006db6db6cb6492db6002cb6c86596496c92d92d92000002d805924924;
   0x12592492092c92486db6c92412492492092492482492c924064925f0000080000006c000b6c924924924b6db00365b20965925b64924924b000003f806c92490;
   0x124904920924d2487c92c924100000120100100800824100024927f0000080000002c000b6c9249248003ffe00b60b00b6d925b640001203000003f002c92480;
   0x2db6492416db6db0db6db6d82c92492412c92480496492490cb6db6000000000000000006db6db6cb6496db6016d96406db6db6c92492492000006d005b24924;
   0x12492492092492486c92c92412492492092492402492492406492ff00024900000124800b6c924925924b6d800b6c920b6db6db64924924b00000fe002d92490;
   0x124924900924d2482492c92402000090002490000090090002493ff0493ffe4824bffd24b6c924925800bfc001b6c800924921b64000000300000fc000592490;
   0x2db6db6c16db6db01b6db6d82592492412cb2c86492c92c90db6db60b6db6db65b6db6db6db6db6436492da0036db2406db6d96cb2492496036036c004b65b24;
   0xb64900005b0000006c00012492492092492402492492406db7ff0493ffe4924bff92436c92480592006c001b6c900b6db6db65b6db6db07f07f00025b2490;
   0x12000000480000002400000400480010002400402402002497ff0493ffa48249ff92436492480180007c001b6c000924925b67fffffff0ff0ff00004b2490;
   0x6c000000b60000005b00024b24b24024924904925925905b6db60b6db6db65b6db6db6db6c900324005a0036d92c06db6d96cb6db6db61b6db6000492db24;
   0xb60000005b0000006c00012492492092492402492492402db7f804925b2492496c92436490180180006c001b6492092592db65b6db6db3ffff80002496f90;
   0x12000000480000002400002482480010000402000000400497f80492492482492492416410000000007e000b20920924925b67f6df6db7ffff80000012d90;
   0x6c000000b60000005b0002596c964004924804924924800b6db00b6db6db65b6db6db2c80cb00000005b0002496d86db6d96cb6db6db65b6db00004924b24;
   0xb60000005b0000006c000124924920000000024924924005b7c00492492492492492400002c00000006c000124920925925b65ffffff87fffc00002492490;
   0x12000000480000002400012010010000000000000000000097c00492492482492492400000000000007e000004920924925b6000000007fff000000000000;
   0x6c000000b60000005b0002c92492c00000000000000000016d800b6db6db65b6db6db00000000000005a00000b6d86db6db6d000000005b6c000004924924;
   0x360000005a0000006c000124924920000000000000000000360005b6db6db6db6db6c000000000000024000005b60ffffffbe000000003ff0000002492490;
   0x1000000000000000000000000001000049249248249249240000000000000000000009003ffffe3e000000000f80000000000000;
   0x2492492400000000000000000000000012492490092492480000000000000000000000002db6d82c000000000100000000924920].
Definition emoji_rows_50 : list N :=
  [0x12492490000480000492492012492490092480000092490000000000000002480092490000000000;
   0x10000000000000000000000000000000000012492492002ff00024924924124924927fffc00000ffff00000000000000024801ffffc000000000;
   0x2000002016000000000000000080000000006db6db6c00dbed805b6db6db6db6db6cb6db6000016db6c000924924000004920b6db6c000000000;
   0x140000101800000000000000820000000000b6db6db6017ffec024920004924000927ffff00001ffff80024924920000024805b6db6002492d80;
   0x600001c18000000000000008000000001209249249203ffffc024900004120000927ffff00001ffff80004924900000004007ffffe002493ff0;
   0x2492492400000500000cb0000492400012492490092496d86db6db6c07c925b05b6c924b6d92496cb6db6000036db6c004b6db6c000000900b6db6c00db6db60;
   0x3ffffffe000003800002c000b6db60005fff90483ffffffcb6db6db60b8003d824900004920000924924b00001924980024924920000004005f6dbe012497ff0;
   0xfffffffe000000c00493c920b6db60004fff900e6ffff92e924924921f8001f824904924120924924924b00001924980004924900000004007c203e012497ff8;
   0x6db6db6d000000a05b6db6d86db6d80096db6496cb6db24b65b6db6c37db6db45b6db6cb6db6d96cb6db6000036db6c004924924000924900b6592c02db6db6c;
   0xfffffffe092492483ff6dbfcb6db60004f24805f6f92592eb0db6db65fbffef824924924920924924924b0400192498002492492002492400592cbe01249fffc;
   0xf7fffffe492492483f9249fcb6db61e07f2c800b7e9e4ffe904924927fbffffc24924924020924824924b04001924980004924900024920007c043e01249fffc;
   0x6ff6dbe5b6db6db65b6db6da6db6db64b6db2496db6d96db6596db6c3fdfedfe596492cb65b6d924b6db60b0036db6c02c925b6c024824900b64b2c02db6db6c;
   0xf7f92ff64be4b6597c92493cb6db61f6796db05b7cf6cbfeb0cb6db67fbff7fe24904824920924924924b24001924980124924920120020005924b60b6d9fffc;
   0xdff92df24fe4f7783c92493c82db67fe79e5d25f7df2e3fe900924927fbff9ff24100824120924924924b240019249801049249001000240078043e0fffdfffc;
   0x6fb24b7db6db6db65b6db6da04924b6db2db65b6db6db6db65965b6cbfdf6dfe5964964b65b6d964b6db65b6036db6c06cb6db6c020000800b6592c06db6db6c;
   0x9ef92df25b7cb2497c92492c00000ffe7bed925f7db6fbfeb0c82db67fbfbbff24900924820924824924b24901924980924924920900004005924b60b649fffc;
   0xdff92df25b7c92483c92493c03fffffe79e493cf79927bfe900824927fbff9ff24100824020924824924b248019249801049249008000040078203e0fe49fffc;
   0x6fb24be5b6db6db65b6db6da05b6db6db2db65b6db6db2db65965b6cbfdb7dfe5b6c924b6db6d964b6db65b6036db6c06cb6db6c020000b00b6492c06db6db6c;
   0xf7fb6ff65b7cf6797c92492c03fffffe79edb3ff7db6fbfeb0c821b67fbdfbff24904124920924924924b2480192498092492492080000c005964b603249fffc;
   0xf7fffff64fe4b2483c92493c03fffffe79e4f3ff7df2fbfe900820927fbff9fe24924124020924824924b2400192498010000000080000e0079003e01249fffc;
   0x6db6db6db6db6db65b6db6da05b6db6db6db65b6d96db6db6596496c3fdbfdfe5b6db6cb65b6d964b6db60b0036db6c06c924924020000b00b6db6c02496d924;
   0xfffffffe4b24b6597c92492c03db6df6797df7ff7cf7cbfeb0c821965faffbf824924924920924924924b0400192498092492492090000c005b6db60000b6000;
   0xfffffffe4924f7783c92493c03dffdf07f7f9fff7cbfcffe900820821ffff9f824904924120924924924b0000192498010492490010001c807ffffe000012000;
   0x7ffffffcb6db6db65b6db6da05b6db60b65b2db6db2d96db6596492c36db6df45b6db6cb6db6d96cb6db6000036db6c06c924924020001b6036db6c00006c000;
   0x3ffffffe4b6492497c92493c03dffdf07f24bfff7f925ffeb2c925961f6003f824904924920924924924b0000192498092492492010002d805b6db60000b6000;
   0x124924904f64b2483c92497c03dffdf07fe5ffff7ff2fffe924924920f8003f824900004120000924924b0000192498010492490000007880096c90000012000;
   0xb6db6db65b6db6da05b6db60b6db6db65b6db6db6db6db6c06c925b05b6c924b6d92496cb6db6000036db6c06c92492480002d80000db0000006c000;
   0x4be4b6796fb6dbec03dffdf05b6db6d82db6db6cb6db6db603edb7c024900004920000925b6db00001b6db8092492492492496000016c000000b6000;
   0x4be492482fffffec03dffdf000000000000000009249249201ffffc024900004120000927ffff00001ffff8010492490492490000006c00000012000;
   0xb6db6db65b6db6d801b6db6000000000000000006db6db6c00dbed805b6db6db6db6db6cb6db6000016db6c06c92492492492000000db0000006c000;
   0x492492480db6db6000cb6c80000000000000000036db6db6002db20024924924124924927fff800001ffff0012492492492480000016c00000010000;
   0x12492490000480000000000000000000092480000092480000000000000000000002400000000000;
   0x4800000000000004800000000000000000000000000000000000000100000000000024924924124924900924924824924924124924900024000000000000;
   0x12480000002000002400000010000000000000000000000400000000080000000000036db6db65b6db6d82db6db6c36db6db65b6db6d80036400002c00000;
   0x124800000020000000000000000000000000000000000000000000000800000000000124924924924924824924924124924924924924800ffe00003f80000;
   0x16db6000000400000490000002400000080000002000000090002000010000000080006db6db6cb6db6db65b6db6db6db6db6cb6db6db6036db6000db60000;
   0xb24900000100000924900020120000024000000900000004800300000804000024000b6c825b65b6cb6db6d96db6cb6cb6db65b6db6db05b25a001e8e0080;
   0x900900000100000000000020000000000000000000000000000300100804000000000924000924920124924824924924924924924924907800f00188f05f0;
   0x36492c00002000012492400c82480000090000002400000092016002010090010080006d92492cb6c92cb65b2db6db6d96db6cb6cb6db6030016c029b60b6c;
   0x5924920005800800924900104124000024800000920000004901800100024000824100b60120965b00305b6c124b6cb60925b65b0db6db0500036032fb0f1c;
   0x48001200078008009249001000000000000000000000000000018001000240008241009209201249009049240001249000009248009049070001e03fe31d9c;
   0xb2492c000b4010036cb6c02412496c020925800024964000925b0000492480012492006c96d92cb64b64965924925b6c92496cb64964b60b0002d82da2196c;
   0x492496000fc0400092490002412492012496400092590000492d800024900000124800b05b6c165b0d800b6c02402cb60920365800805b04000068104339f6;
   0x400012001ff0400090090002400092080002400000090000003c80002410000010080090492012490480492402482492092012480000490e000070186f39c6;
   0xb2492c005b6880036496c06482496c10092db0002496c000925b00004824000020120064b6d92cb65b6cb65b2db65b6d96d92cb64925b60b0000580cb6db6c;
   0x492496007ffe000080010000412492082496400092590000496c800020120000900900b0db6db65b2db05b6d96db2cb2cb6c165b0c16db0c00002c06fffff4;
   0x40001200fffe000080010000000092080002400000090000016480002002000080010090492492490490492092490490492412492412490600001c03fffff8;
   0xb2492c00db6d00036496c06c82496c10092db0002496c00092db00924004920920024864b6db2cb65b6cb6596db6db6cb6db2cb6db2db60b00001801b6db68;
   0x59249201fffe0000924900800124920824964000925900004b24804820024804800120b2db6d865b2db05b60b6db6cb05b6c165b6d96db0d00000c30cffcb0;
   0x48001001ffff0000900900000000920800024000000900000b2480002002000080010092492482490490492092402490492412492482490700000e30cffca0;
   0x36496c02db6c00036cb6c06482496c10092db0002496c000965b0000480400012002006db6db2cb65b6cb6596d925b6cb6db2cb6cb25b60300000b6db6db60;
   0x9249003fff00000924900004124920824964000925900005924800024120000900900b24b6c165b2db05b6c36c32cb05b61965b0d82db0580000c3ffffff0;
   0x49249003ffe0000092490002400092080002400000090000582480002410000010080090092412480490492412010490092092480080490780000c3fffffe0;
   0x5b6db6002db6000036db6c02432496c06092db0002496c000b25b0000492400002492006496d92cb24b64b65b25965b6c92496cb64964b60120001b6db6db60;
   0x6c1248003ff80000092490012012492012492400092490000c924800104920000924900b01b6c165805b0db6c02800cb60000165800b05b0090002c3efb6df0;
   0x6c0240003fc00000080010010000000000000000000000000c0000001000240008241009009201248048049248200049200001248009049009c003c38e924e0;
   0x2db0000006d80000036496c02c82480000092000002480000592000002410080010482406c92496cb65925b65b65965b6db2496cb64b6db60b6d92d861b6db60;
   0x36c000000f20000000800100100124000024800000920000064900000900804000800100b20000b65b2c02db6db6c02cb6db60b65b0db6db2f96db6800d925f0;
   0x36c000001e0000000092490002000000000000000000000006000000010080400000000092400092492012492492402492492092492492493f13ffa000e924e0;
   0x6d80000016000000036db6c00402400000090000002400002c90000002010000000080006db24b6cb6db6db65b6db6db6db6db6cb6db6db65b01b28000b6db60;
   0xb60000001800000000924900000120000024000000900000104800000000800000000000b6db6db65b6db6db6db6db6cb6db6db65b6db6db7f00000000592580;
   0x36000000180000000000000000000000000000000000000000000000000080000000000012492492492492482492492412492492492492483e00000000092400;
   0x2c00000034000000012492400002000000080000002000000080000000010000000000002db6db6c36db6db65b6db6d82db6db6c36db6db65a00000000124900;
   0x10000000080000000000000000000000000000000000000000000000000000000000000012492490092492482492492412492490092492482000000000000000].
Definition emoji_rows_51 : list N :=
  [0x2000000000000000000400000000000002400000000000000000000000000000000000000000000000000000000000000000000000000000000000;
   0x2c00000c000000160060000000b0000000580002db60005900000124924900000800000024000000920000000000005b6000006d800000000000000b64000;
   0x3e00001e0000001f00f0000000780000007c000b6db0012480000092492480002400000012000002490000000000006db00000b2c00000000000002592000;
   0x3e00003fffffe07ffffe03fffffc07fffffc001b6db0012480000000000080002400000012000002490000002400012490000090410000000080002492000;
   0x6c00016db6db60b6db6d86db6db60b6db6db0036db6c02cb60000125b6492000490580012480000482400000490002cb6c000361b2480000092400d92d800;
   0xfe0005fffffff3ffffffcfffffffe7ffffff805b6db6010090000416d924800124860000924000020020000124800305b60001b2d92400002490016492400;
   0xff0007fffffff7ffffffefffffffe7fffffff0db6db6010090000017f92480012496000492400002002000010080010492000492482400002412012002400;
   0x16d800b6db6db65b6db6db6db6db6cb6db6db61b6db6d86006c000125b6492002492c000924900004004000024120060b6c00036db0090000480402c925a00;
   0x1ffc005fffffff3ffffffcfffffffe7ffffff82db6db6c10000000496d924800924b00004924000120000000900900b2db60005b6d80400002002012492400;
   0x7ffc000fffffff0ffffff0fffffff07ffffff82db25b6c10000000007f804800924b0000492400002000000080010012492000492480400002002010000400;
   0x36da0006db6db60b6db6d06db6db60b6db6db05b6496da2c02d800125b6492012496000092490000400000012002006db6c00036db00100004004864924b00;
   0xff40003edb6d805f6dfe036db6f805b6db7c06db24b6c12092400496d924800925b00004924800120000000800100b6db60001b6d004800020020b2492400;
   0xff00001e0000000e0070000000780000007006d80036c12092400007f80480092590000492400002000000080010012492000092400080002002010000400;
   0x16d800004000000060060000000b00000004005b6492db0d965b00125b64920124b2000092490000400000012002006db6c00016db00100004004864924b00;
   0xff000002000000000000000000400000000006d92496c02480480496d92480092d90000492480012492000092490036db60000b6c92480012492412492400;
   0xfe000000000000000000000000000000000006d80016c02480480007f80480092c90000492480012492400092490012492000012492480012492410000400;
   0x5b2492db01b01b60125b6492012592400092490002492480012492402db6d80002d92492d82db2492c925b00;
   0x2000010000000000000000006d92496c00482490496d92480096c90002492480012492400492492006db6c00016492497816d92412492400;
   0x1201609200000000618383e002400010000000006d80016c00482490007f804800964900024924800124924004924920024924000124924878b6d92412002400;
   0x2d86d96d00000000430586d82da60b6c000000005b6492db0036d86c125b6492012c92400492492002492490092492400092da0002d92492db6db6c90d92d800;
   0x37cf7db6000000006187cf3c3ecf0ebe000000006db24b6c00092012496d924804b6492002492480012492400492492000006c00016492497db6db2402492480;
   0xf1dc3c30000000006387dc0c30ee0e06000000002db00b6c000920120071804804b2492002492490012492400492492000002480012492487fb2492402492580;
   0x6194182002080410430d940b60b61b05a2582c365b6cb6d80002400c125964920964924804924920024924900924924000005b6000d92492db6cb6d901b6cb60;
   0xf2d80c30432c1618619fd80ef0cf3e16736c1c5b2db6db6c000020124964924805b2492012492490012492400492492000000db0016492497fb24924004905b0;
   0x73d80c304366331e63bbd806e06e667e3b0634630db6db6800012002002080480592492012492490012492400492492000000490012492487fb25b24000005b0;
   0x6db00a20864361864369b40b60b6cb6d160324360b6db6d80000d80c124924920b24924804924920024924900924924000000b6c02d92492db6db6c900000b6c;
   0x17d80c304b61a09f61f3d80cf0cfe6160f01b65f05b6db6000002412092492480c000000000000000124924004924920000001b6016492497db6db24000005b6;
   0x1dc1c305b41e0f823e3dc0c706f86061b03366b05b6db6000002410000000480c00000000000000012492400492492000000092012492487896d924000000b6;
   0x1965820b2c361b0436196586cb6cb2532036da6016db6c000001b6c02492492180490000002400002492490092492400000016c02d92492d82db2490000016c;
   0x2cbf830436533786183cf7c3ecf06b67366f64b00b6db0000000490012492480002400000012000012492400492492000000036016492486012c924000000b6;
   0x83e030433e1e1f638383f01fcf06fe437cc37f0016d80000000480010000480002400000010000012492400092490000000010002492480012492400000012;
   0x400082180c16410082c004820024825801920004900000000100004924900000800000024000004924800124920000000004004924900004924800000024;
   0x10000000000000000000000080000000000000000012492490092492482492492412492490092492482492492400092000;
   0x100100000000000000000000380000000000000000000004800000000000000000124924924924924824924924124924924924924824924924001fec00;
   0x2812000000000000000000016c000004000005900000000b0000000000000c00006db6db6cb6db6db65b6db6db6db6db6cb6db6db65b6db6db00b7db00;
   0xf809000000000001000000019e000012000006d800000004000000020800100800b6db6db6596d924b6d96d96cb6c36db65b25b2db6db6db6c02fffd80;
   0x1fc09000000009249000000039e000000000000580000002400000000000010000092492492482480012402482492412492480090492492492403ffff80;
   0xb6c16c800000b6db6c800000b6c00002480000036000000180000002410006c06006db6db6cb2db24965925b25b6db2db6cb64b6cb65b6db6db0dffff60;
   0x2dfe0b2400002492492400000ff60000124000001b00000024020000304000100800b6db6db6586db6db6c32d96cb64364b65865b25b6c82d92417ffffb0;
   0x7ffe012400006092492400000ff00000000000001b000000240200009000001008009249249248249249241249249201001248209209240048041fcffff0;
   0x2db6c02490000496c924b00001b6000000c90000016c000005b0c00016c02006cb6086db6db6cb6db24965b2db2db6c92c92cb64b65b65924b24b2f93fb2c;
   0xb6db00124800064924924000031800000324800001b60000024920001960800924800b6db0db6586d800b6c16d96cb04344165805b21b601058243e01e5b6;
   0xfff80012480002412492400007d800000320800000b600000249200059200009248009249049248048001241249249041041248208209201048243c00fc3e;
   0x16db0002492000596db6c80000db0000016db60000b6d80000db6c000b6d80006db6086db6db6cb64b6cb65b2db2db6cb2cb2cb2cb6496596cb25b7cb2f97c;
   0x5b6c00012490002492db6000017c000021b64800004b6c000124900005b2c000924804b2d904965805b05b6c82d96cb04344165825820b60b0582c3c786dfe;
   0xffe000012410000492490000013c00000092080000486c000124900005b24000124804804000024804904924024924900100124800820920900824fc78e1fe;
   0x5b6c00002c920000b2c06000002580000496c100001b0580006d900004b6d80406db65864b25924b64b6cb65925b2db6c92c96cb64b6d96496cb25b7c92d9fd;
   0x16d900000124900004904800000120000024b00000024060000924000065b60020124924b64300865b6db6db6db6d96cb65b6cb65b6d96db60b6182cbe0161fe;
   0x3ff920000100905804904800000020000000900000024020000920000124b60020124924920100824924924924924924924924924924924920900824fe03e1fe;
   0x6db2c000060960b00b6014000012400000496000000d800000b6c00000db6c00596cb6d86c96d964b2cb6cb65b2db2db6cb6db6cb64b64b6496c925b7cb6f9fd;
   0x3e0120000104b0d004904800000920000024800000120000024920000124b40024924924b64300865901b01b6c16c02cb05b6db65801805b60b0182cb87b61fe;
   0x1e012000010082c004924800000000000060100000120000124900000124800024924924804000024800920924124024904924924820820920900824387861fe;
   0x2c06d800060005801b6490000092480000d96000006c00002db6000002db00005b64b65864b2592cb64965965b2db65b6c96c96cb2db6d96596cb25b7cb279fc;
   0xffc000100068024900000004920000164900000900000124900000924800024924924b2d92d965b25b01b6c06c16cb00360b65961b60b60b0582c385861fe;
   0xffc0001001600248000000000000003249000009000001248000009240000249249249249249249249009240241249041241249209209201048243cc061fc;
   0x16d90002d92c005b6000000092400016d960000360000060b6000016d80000196492586db6db6cb65b6c965b65b2db6cb2db2cb2db6d965924b25b2d92f9ec;
   0x924000124b40024800000024900001b60800004800000804800004924000004924920b6db6db6592d80cb6c02c36cb0416c365961b60b6c00d82c16cbf1f0;
   0x904000024b0402480000000000000092000000480000000480000492000000492492092492492400480c92402412490412412482092092400482417dffff0;
   0xb0c30000db61b05b6000000492000036c000001b00000000340000b6c00000092492406db6db6cb24b65965925925b6cb2c96cb24b64965b25b6db0dffffe0;
   0x4124800124804824800000124800005b00000024000000004800004920000000924900b6db6db64065800b6c36c02cb00360b65801805b6db6db6c02ffff80;
   0x410080092492400000000000000000490000002400000000480000090000000092490092492492482480092412402490092092490080492492492402ffff80;
   0xb0c16016db6db00000000024900000360000005800000001b0000016000000002492006db6db6cb6db6db65b6db6db6db6db6cb6db6db65b6db6db00b7db00;
   0x412080092492480000000012000000080000000000000002400000090000000012480036db6db65b6db6d82db6db6c36db6db65b6db6d82db6db6c005b6c00;
   0x12492490092492480492492012492490092492480492492000012000].
Definition emoji_rows_52 : list N :=
  [0x24924924124924900000000000000000000000000000000000000000000000000004900000024000124924901b6db6d800000000020000100924924800024000;
   0x36db6db65b6db6d800000000000000000000000000000000000100000000800000124800005b6c00092492487ffffffc00010000030000502db65b6c00092000;
   0x124924924924924800000000000000000000000000000000000100000000800000924900007ffc00000000007ffffffe00010000030000c02db01b6c00492400;
   0x6db6db6cb6db6db6000000000000000000000000000000000006c000000b6000016db6c001b6db0092492492db6db6db0002400002c001b05b6c96db00b6db00;
   0xb6db6db65b6db6db0000000000000000000000000000000000092000000490000492492002db6d80492492487ffffffe00092000032002106db00b6c02496480;
   0x92492492492492490000000000000000000000000000000000092000000490000492492007fffff0012492407c92497e00092000032006006db00b6c02496480;
   0x6db6db6cb6db6db6000000000000000000000000000000000036d800005b6c000b6db6d80db6db6092db6d92d924925b0012480002580cb05b6596db05b6db60;
   0xb64924b65b6cb6db0492490000010000000080000000000000492400002492000492492016db6db04bffffc87c92493e00092400032410106482492c02592490;
   0x9200001249241249049249000001000000008000000240000049240000249200249249241ffffff803ffffc07c00003e00092000032430006000000402592490;
   0x6c92496cb6d92db6036db6c00006c000000b60000005b00001b6db0002db6d805b6db6d82db6db6c96db6db2d924925b00024000024b64b04924924b0db6db60;
   0xb60000b65b6c16db01b6db00000b6000000490000002400002492480012492402492492436db6db64bffffc87c92493e02012080032480106586c10412db2490;
   0x9200009249201249009249000009200000049000001248000249248001249240249249243ffffffe03ffffc07c00003e02010080032480006196c10412db2490;
   0x6d92496cb6d92db6016db6000016d800005b6c00002db6000db6db6016db6db05b6db6db6db6db6c96db6db2d924925b04824120024924b0592db25b2db6db6c;
   0xb6c001b65b6016db00b6db00001b68000024920000124800124924900924924824924924b6db6db64bffffc87c92493e12410090032480106012582c12db6490;
   0x924000924920024900124800000924000024920000924900124924900924924824924924fffffffe03ffffc07c00003e02010080032480006010082c12596490;
   0x6d924b6cb6c925b6002db60000b6d80000db6d80016db6002db6db6c36db6db65b6db6db6db6db6c96db6db2d924925b04824120024924b0596c965b2db6db6c;
   0xb6c005b65b6002db0016d800005b6c000124920000924900124924924924924824924924b6db6db64bffffc87c92493e00010080032480106c30082c12496c90;
   0x924004924900024900124800004924000024920000924900124924900924924824924924fffffffe03ffffc07c00003e00010000032480006010082c12496c90;
   0x6db24b6cb6c925b6000db00001b6db00005b6c00006db6002db6db6c16db6db05b6db6db6db6db6c96db6db2d924925b20924904024924b0592cb25b0db6db60;
   0xb6d80db65b0002db0006c00002db6d80002490000012480002492490092492402492492436db6db64bffffc87c92493e10492412032480106196590c02496c90;
   0x9248049249000049000240000249248000049000001248000249248001249240249249243ffffffe03ffffc07c00003e12492410032480006186c10402492480;
   0x6db25b6cb64924b60005800005b6db60000b60000005b00005b6db6002db6d805b6db6d86db6db6c96db6db2d924925b2492492402c924b04924924b05b6db60;
   0xb6d82db65b00005b0002c00002492480000480000002400000492480012492002492492436db6db64bffffc87c92493e12492490012480406000000402492480;
   0x9248249248000049000000000000000000008000000240000049240000249200249249241ffffff803ffffc07c00003e02492480006480c06000000400492480;
   0x6db65b6cb64924b60000000000000000000100000000800000b6db00005b6c001b6db6d82db6db6c96db6db2d924925b04924920005925805b6596db01b6db00;
   0xb6db6db65b6db6db0000000000000000000000000000000000092400002490000492492016db6db04bffffc87c92493e02492480002482006db2cb6c02c92580;
   0x92492492492492490000000000000000000000000000000000092000000490000492492007fffff0012492407c92497e00492400000c86006db00b6c02d92f80;
   0x6db6db6cb6db6db6000000000000000000000000000000000016d800000b6000036db6c005b6db6092492492db6db6db00124800000b2c005b6c96db05b6db60;
   0xb6db6db65b6db6db0000000000000000000000000000000000012000000480000092490002db6d80492492487ffffffe00012000000490006db01b6c02db6d80;
   0x124924924924924800000000000000000000000000000000000100000000800000924900007ffc00000000007ffffffe000100000001b0002db25b6c02492480;
   0x2db6db6c36db6db6000000000000000000000000000000000002400000010000002db2000036d800124924925b6db6da00000000000160005b6db6d805b6db60;
   0x12492490092492480000000000000000000000000000000000000000000000000002400000012000000000002492492400000000000080002492492402492480;
   0x92492480000000000000000000080000000000012492490;
   0x16d800004b6400002db2000016d800004b6400002db2000016d800004b6400002db2000016d80036db6db60001800000000020000bec00000002002db6db6c;
   0x4924000024920000924900004924000024920000924900004924000024920000924900004924005b6db6db0003c00000000010017ffe0004004800b6db6db6;
   0x4924800124920000924900004924800124920000924900004924800124920000924900004924805b6cb6db00066000000000100bffffc000004800b6db6db6;
   0x5b24b6002c92580036496c005b24b6002c92580036496c005b24b6002c92580036496c005b24b60b6db6db6000db00000000060b6dbfffe0800b0006db2db6c;
   0x24924900924924004924920024924900924924004924920024924900924924004924920024924904924924b00165800000000907fffffff04004800b6c16db6;
   0x20100900900804004800120020100900900804004800120020100900900804004800120020100904924000300324c00000800907fffffff00004000b6412db6;
   0x2c92c964164924b00b2592582c92c964164924b00b2592582c92c964164924b00b2592582c92c964b6db6db6006db60000300124b6db6ffe0801b0006db25b6c;
   0x12492490092592482492c92412492490092592482492c92412492490092592482492c924124924904925924b00b65b00004800907b2492ff04024000b6096db6;
   0x100100100800800824000024100100100800800824000024100100100800800824000024100900104924924b00124800004900004800924f00024000b60000b6;
   0x2c92c92c32492496592592582c92c92c32492496592592582c92c92c32492496592592582c96c92cb6db6db60025960005b6c124924b6c960905b0006d92496c;
   0x12492492492592482492c92412492492492592482492c92412492492492592482492c92412492492492492030012c80002492090496ffec924824000b6cb00b6;
   0x100104124800800820000004100100124800800820000004100100124800800820b0000410090012400010030412c820024920004bfcfff800024000b60b20b6;
   0x6492d92cb24924965925924b6492c92cb24924965925924b6492c92cb2492496592d924b6496c92cb6c925b60b2596d80db6c020b6cb6dfe0925b2006c965b6c;
   0x92496492492592492492c92492492492492592492492c92492492492492592492496c924924b24924064324b0d924960124920905b2cb2df24924104b0432db6;
   0x100120024000920820004004100100024000800820000004100100024125800820020004100100024024024b2d92496c12492000410cf24b00004000b0c105b6;
   0x6492c92cb2496d965925b24b6492c92cb24924965925924b6496c92cb2db24965925924b6492c92cb2592c965b6db6da0db6d820b2dbfdb6092492c06db2cb6c;
   0x924924924924924924925924924964924925924924924924924b2492492492492492492492492492592c10cb7ff2cbfc124920905bffffff04924900b2c105b6;
   0x100000024000000820000804100060024000800820020004105800024000000820000004100000025904120b24924924024920007fffffff00000900b2c00596;
   0x6492492cb24924965924964b6492492cb24924965924924b64b2492cb24924965924924b6492492cb64924b6092db64824924820b6dbfffe012596806db65b6c;
   0x124924924924924824924924124924924925924824964924124924924924924824924924124924925b24125b24924964124924907fffffff0012c900b2db2d96;
   0x100000100800000820000004100020100800800820100004100000100800000820000004100000105b04105b04124860001800007fffffff00024900b0482d96;
   0x2c92492c32492496592492582c92592c32492496592c92582c92492c32492496592492582c92492cb6c925b60b2db6c824b64820b6dbfffe0025b2c06cb65b2c;
   0x124924900924924824924924124924900925924824924924124924900924924824924924124924905b6416db2496c964127924907fffffff00924800b00a2c36;
   0x120000900900004804000020120000900900804804000020120000900900004804000020120000905b6c16db0412c820027c20007fffffff00004000b2080036;
   0xd924960164924b00b2492d80d924960164924b00b2492d80d924960164924b00b2492d80d924960b6d92db6092db6482cb6c820b6dbfffe092480006d96496c;
   0x24924900924924004924920024924900924924004924920024924900924924004924920024924905b6006db2496c924167d64907fffffff0480c000b6db00b6;
   0x24804800120124000900900024804800120124000900900024804800120124000900900024804805b00005b0012c8001e7de0007fffffff00004000b6db24b6;
   0xb6db0002db6d80016db64000b6db0002db6d80016db64000b6db0002db6d80016db64000b6db00b64924b6092db6482db6d924b6dbfffe090180006db6db6c;
   0x4924000024920000924900004924000024920000924900004924000024920000924900004924005b6db6db2492c9241e7d64905fffffff0002c000b6db6db6;
   0x920000004900000124800000920000004900000124800000920000004900000124800000920005b6db6d8001248001e7de000097fffc00000000016db6db2;
   0x2400000092000000490000002400000092000000490000002400000092000000490000002400012492490092492482cb6c924000964000000000024924924].
Definition emoji_rows_53 : list N :=
  [0x2400000010000000080000002400000010000000080000002400000010000000080000002400000010000000080000002400000010000;
   0x12480000092000000490000012480000092000000490000012480000092000000490000012480000092000000490000012480000092000;
   0x90000016db60000b6db00005b6c80016db60000b6db00005b6c80016db60000b6db00005b6c80016db60000b6db00005b6c80016db60000b6db00;
   0x480000092490000492480012492000092490000492480012492000092490000492480012492000092490000492480012492000092490000492480;
   0x480000090090002480480012012400090090002480480012012400090090002480480012012400090090002480480012012400090090002490480;
   0x900000b2492c00592496006c925b00b2492c00592496006c925b00b2492c00592496006c925b00b2492c00592496006c925b00b2592c00592c960;
   0x480000492492002492490092492400492492002492490092492400492492002492490092492400492492002492490092492400492c92002492490;
   0x12000002480000400002012000090090000480400002012000090090000480400002012000090090000480400002012000090090000480400002012010090;
   0x16d80000492000192592582c92592c164924b0192492582c92492c164924b0192492582c92492c164924b0192492582c92492c164924b0192592582c92d92c;
   0x5f7c00002490002492c92412492490092492482492492412492490092492482492492412492490092492482492492412492490092c92482492c92412492490;
   0x792e00002490002000000410002010080000082000000410000010080000082000000410000010080000082000000410000010080400082000000410012010;
   0xb24b0000492400592592482492592c32492496592492482492492c32492496592492482492492c324924965924924824b2492c324b2496592592482492c92c;
   0xc10580002490002492c92412496492492496482492492412492492492492482492492412492492492492482492492412592492492492482492c92412496492;
   0x3c10180002490002000000410006002400012082000000410000002400000082000000410000002400000082000000410080002400400082000000410016002;
   0x192c940000920005925924b6492c92cb2496c965924924b6492492cb24924965924924b6492492cb24924965924924b6496492cb24b24965925924b6492c92c;
   0x3c10180000480002492c92492492492492492492492db24924924924924924924924924924924924924924924b64924924b2492492592492492c92492492492;
   0x30100c0000080002000000410010002400080082000c90410012002400080082000000410010002400580082092000410010002400080082000000410010002;
   0x592d960000324005925924b6492c92cb24924965925924b6492d92cb24964965925924b6492c92cb24b24965925924b6492c92cb24924965924924b6492492c;
   0x34120c0000192002492c92412492492492592482492c92412492c92492592482492c924124b2492492d92482492c92412492492492592482492492412492492;
   0x30000c0000000002000000410010012480080082000000410010412480090082000000410090012482080082000000410010012480080082000000410000012;
   0x592496000492400592592482492c92c32492496592592482492cb2c32496496592592482496c92c32492496592592482492c92c32492496592492482492492c;
   0x7c005e0002492002492c92412492492492592482492c924124924924925b2482492c92412492492492592482492c92412492492492592482492492412492492;
   0x7c007e0000000002400002410010010080080082400002410010010080090082400002410090010080080082400002410010010080080082400002410000010;
   0xdb24b6000492400192592582c92c92c164924b0192592582c92c92c164924b0192592582c92c92c164924b0192592582c92c92c164924b0192492582c92492c;
   0x1ff92ff0002492000492c92012492490092592480492c92012492490092592480492c92012492490092592480492c92012492490092592480492492012492490;
   0x3fff7ffe000000000480012002010090090080400480012002010090090080400480012002010090090080400480012002010090090080400480012002000090;
   0x2db6db6c004924000b2492c00592496006c925b00b2492c00592496006c925b00b2492c00592496006c925b00b2592c00592c96006c925b00b2492c005924960;
   0x3ffffffe002490000492492002492480012492400492492002492480012492400492492002492480012492400492492002492480012492400492492002492480;
   0x3ffffffe000000000092490000492480012492000092490000492480012492000092490000492480012492000092490000492480012492000092490000492480;
   0x6d80036c00492400016db60000b6db00005b6c80016db60000b6db00005b6c80016db60000b6db00005b6c80016db60000b6db00005b6c80016db60000b6db00;
   0xff8001fe002490000012480000092400002490000012480000092400002490000012480000092400002490000012480000092400002490000012480000092400;
   0x12000092000000000000000000000000000000000000000000000000000000000000000000000000000000000000000000000000000000000000000000000000;
   0x1800000000000000000000000800000000000000000000000800000000000000000000000800000000000000000000000800000000000;
   0x34000000180000007c00000034000000180000002c00000034000000180000002c00000034000000180000002400000034000000180000003c00000000000;
   0x3e0000007c0000007e0000003e0000007c0000007e0000003e0000007c0000007e0000003e0000007c000000000000003e0000007c0000007e00000000000;
   0x6c000000b6000000fb0000006c000000b6000000db0000006c000000b6000000db0000006c000000b6000000490000006c000000b6000000db00000000000;
   0xb6000000db000000ef000000b6000000db0000006d000000b6000000db0000006d000000b6000000db00000064000000b6000000db0000006500000000000;
   0xfe0000007f000000ff000000fe0000007f000000ff000000fe0000007f0000007f000000fe0000007f0000007c000000fe0000007f000000fd00000000000;
   0x6c000000b6000000db0000006c000000b6000000db0000006c000000b6000000db0000006c000000b60000005b0000006c000000b6000000db00000000000;
   0x360000005a000000ef00000036000000580000006d00000036000000580000006d00000012000000480000002c00000012000000480000006500000000000;
   0x3e00000018000000ef00000010000000180000006400000010000000080000006400000010000000080000000000000010000000080000006700000000000;
   0x2c000000920000005b0000002c000000920000005b0000002c000000920000005b00000024000000920000005b00000024000000920000005b00000024000;
   0x92000000cb0000007f00000092000000cb0000007f00000092000000cb0000007f00000092000000cb0000007f00000092000000cb0000007f000005b6c00;
   0x1d3800001cb800001ff800001d3800001cb800001ff800001d3800001cb800001ff800001d3800001cb800001ff800001d3800001cb800001ff80002c92580;
   0x16d800001b6c00002db0000016d800001b6c00002db0000016d800001b6c00002db0000016d800001b6c00002db0000016d800001b6c00002db0000c924960;
   0x1f7800001db8000017d800001f7800001db8000017d800001f7800001db8000017d800001f7800001cb8000017d800001f7800001db8000017d800124b6490;
   0x1ff800001ef8000013c800001ff800001ef8000013c800001ff800001ef8000013c800001ff800001ef8000013c800001ff800001ef8000013c80032ffff94;
   0x16d800001b6c00002db0000016d800001b6c000025b0000016d800001b6c000025b0000016d800001b6c000025b0000016d800001b6c000025b0006db6db6c;
   0x1ff800001ff8000012c800001ff800001ff8000012c800001ff800001ff8000012c800001ff800001ff8000012c800001ff800001ff8000012c80037fffff6;
   0x1ff800001ff80000124800001ff800001ff80000024000001ff800001ff80000024000001ff800001ff80000024000001ff800001ff800000240003ffffffe;
   0x16d800001b6c000005b0000016d800001b6c000005b0000016d800001b6c000005b0000016d800001b6c000005b0000016d800001b6c000005b0002db6db6c;
   0x1b6800000db00000024000001b6800000db00000024000000b60000005b00000024000000b60000005b00000024000000b60000005b000000240001ffffff0;
   0x36000000580000002400000036000000580000002400000036000000580000002400000036000000580000002400000036000000580000002400007fffff0;
   0x6c000000b6000000580000006c000000b6000000580000006c000000b6000000580000006c000000b6000000580000006c000000b60000005800005b6db20;
   0x360000005a0000002c000000360000005a00000024000000360000005a00000024000000360000005a00000024000000360000005a00000024000005b6c00;
   0x36000000580000002400000036000000580000002400000036000000580000002400000036000000580000000000000036000000580000000000000000000;
   0x6c00000036000000180000006c00000036000000180000006c00000036000000080000006c00000036000000080000006c000000360000000800000000000;
   0x36000000580000002c00000036000000580000002400000036000000580000002400000036000000580000002400000036000000580000002400000000000;
   0x3e0000007c0000003c0000003e0000007c0000002c0000003e0000007c000000240000003e0000007c000000240000003e0000007c0000002400000000000;
   0x6c000000b6000000580000006c000000b6000000580000006c000000b6000000580000006c000000b6000000580000006c000000b60000005800000000000;
   0x26000000420000002400000026000000420000002400000026000000420000002400000026000000420000002400000026000000420000002400000000000;
   0x0;
   0x16c800000b6000000db0000016c800000b6000000db0000016c800000b6000000db0000016c800000b6000000db0000016c800000b6000000db00000000000;
   0x12000000480000000000000012000000480000002400000012000000480000000000000012000000480000002400000012000000480000002400000000000].
Definition emoji_rows_54 : list N :=
  [0x80000000010000000080000080000000010000000080000080000000010000000080000080000000010000000080000080000000000000000000000000000;
   0x36d800005b6c00002db6000036d800005b6c00002db6000036d800005b6c00002db6000036d800005b6c00002db6000036d80000036000000580000002c000;
   0x5b6c00002db6000036da00005b6c00002db6000036da00005b6c00002db6000036da00005b6c00002db6000036da00005b6c000007e0000007c00000012000;
   0x5b6c00006db6000036db00005b6c00006db6000036db00005b6c00006db6000036db00005b6c00006db6000036db00005b6c000007e0000007c00000092000;
   0xb6db0000db6d00006db60000b6db0000db6d00006db60000b6db0000db6d00006db60000b6db0000db6d00006db60000b6db00000b6000000db0000006c000;
   0xdb6d80006db60000b6db0000db6d80006db60000b6db0000db6d80006db60000b6db0000db6d80006db60000b6db0000db6d800007f0000007c000000b6000;
   0xdb6d8001edb60000b6db0000db6d8001edb60000b6db0000db6d8001edb60000b6db0000db6d8001edb60000b6db0000db6d800007c0000003c00000092000;
   0x5b6db2002db6d80016db6c005b6db2002db6d80016db6c005b6db2002db6d80016db6c005b6db2002db6d80016db6c005b6db2000036000000580000002c000;
   0x6ffffb00bffffc805ffffe006ffffb00bffffc805ffffe006ffffb00bffffc805ffffe006ffffb00bffffc805ffff6006ffffb0000080000002400000092000;
   0x6ffffb00b7fffd80dffff6006ffffb00b7fffd80dffff6006ffffb00b7fffd80dffff6006ffffb00b7fffd80dffff6006ffffb0000080000000000000036000;
   0xdb6db6016db6db00b6db6d80db6db6016db6db00b6db6d80db6db6016db6db00b6db6d80db6db6016db6db00b6db6d80db6db6000092000000cb0000016d800;
   0x2db6d80036db6c005b6db6002db6d80036db6c005b6db6002db6d80036db6c005b6db6002db6d80036db6c005b6db6002db6d80000cb000001e5800001ff800;
   0x3db6d8001edb6c001b6db8003db6d8001edb6c001b6db8003db6d8001edb68001b6db8003db6d8001edb6c001b6dbc003db6d80001db800001e7800001ff800;
   0x1b6db4002db6d80016db6c001b6db0002db6d80016db6c001b6db0002db6d80016db6c001b6db0002db6d80016db6c001b6db00001b6c00002db0000016d800;
   0x3ff7f8001ffffc001feff0002ff7f8001ffffc001feff0002ff7f80017efe0000fe7f0000ff7f8003fcffc001fe7f0002ff7f80003ff800001ef800001bec00;
   0x3ffffc001feff8000fe7f0002ff7f8001feff8000fe7f0002ff7f8000fefe0000fe7f0000ff7f8001fe7f8000fe7f0002fe7fc0001ff800001ff8000003e000;
   0x7b6db6002db6d80016db60005b6db6002db6d80016db60005b6db6000db6d80016cb60000b65b0002db6d80016cb60005b65b60001b6c00002db0000016c800;
   0x3fb6dc0016db60000b6db0002db6d80016cb60000b65b0002592c80016cb60000b65b0002592c80016cb68000b65b0002592cc0003ff800001ff80000012000;
   0x7fbffe0012592800192c90003c925c00124928001924900034924c00100800000800100020100800100808000800100030100c0000ff000001ff80000012000;
   0x5b6db6002db6d80016db6c005b6db6002db6d80016db6c005b6db6002d92d80016496c005b24b6002c92580016496c005b24b60000b6000000db0000006c000;
   0x6db6de0016db6c001b6db0006db6da0016db6c001b6db0006db6da0016db6c001b6db0002db6d80016db6c001b6db0006db6da00005a0000006c00000016000;
   0x6db6de0016df60000b6db0002db6dc0016df60000b6db0002db6dc0016df60000b6db0002db6d80016df60000b6db0002db6dc0000580000002c00000010000;
   0x5b6db6000db6d80016db68005b6db6000db6d80016db68005b6db6000db6d80016db68001b6db0000db6d80016db68005b6db60000360000005a00000024000;
   0xdb6d80016db60000b6db0000db6d80016db60000b6db0000db6d80016db60000b6db0000db6d80016db60000b6db0000db6d800005a0000006c00000010000;
   0x5b6c00006db60000b7db00005b6c00006db60000b7db00005b6c00006db60000b7db00005b6c00006db60000b7db00005b6c00000580000002c00000000000;
   0xb6db0002db6d80016db64000b6db0002db6d80016db64000b6db0002db6d80016db64000b6db0002db6d80016db64000b6db00000360000005a00000024000;
   0x2db6d80036db6c005b6db6002db6d80036db6c005b6db6002db6d80036db6c005b6db6002db6d80036db6c005b6db6002db6d800007e0000007c00000012000;
   0x6db7db00b6db6c005b6fb6006db7db00b6db6c005b6fb6006db7db00b6db6c005b6fb6006db7db00b6db6c005b6fb6006db7db00007e0000006e00000034000;
   0xdb6db6016db6db00b6db6d80db6db6016db6db00b6db6d80db6db6016db6db00b6db6d80db6db6016db6db00b6db6d80db6db60000b60000004b00000024000;
   0x16db6db00b6db6d80db6db6016db6db00b6db6d80db6db6016db6db00b6db6d80db6db6016db6db00b6db6d80db6db6016db6db0000000000000000000000000;
   0x16db6db00b6db6d80db6fb6016db6db00b6db6d80db6fb6016db6db00b6db6d80db6fb6016db6db00b6db6d80db6fb6016db6db0000490000002400000092000;
   0x4924920124924900924b24804924920124924900924b24804924920124924900924b24804924920124924900924b24804924920000920000004900000024000;
   0x400000002000000080000000000000002000000000000000000000000000000000000010480000082000000410000010480000082000;
   0x12000000090000001f0000001e0000100f000000000000001e000000000000000000000000080000000000016580000196c00002cb0000016580000196c00;
   0xb65800000120000101f0000182d80002416000010090000082d80000036000000180000180014000000000006db6000036db00005b6c00006db6000036db00;
   0x490000010090000082f80000c160000100b00000804000004138000005b0000002c000030000800000000000b6db00005b6c00006db60000b6db00005b6c00;
   0x10000008010000080f80000c12000008090000080000000c020000007f00000024000030000800000000000b6db00005b6c00006db60000b6db00005b6c00;
   0x182c80000c120000061b0000080d80000c160000060900000805800000b6000002c92400180010000000000016db60000b6db0000db6d80016db60000b6db00;
   0x20104000060800000e0c000004060000060800000e0400000402000000db00001900940008001800000000000b6db0000db6d80016db60000b6db0000db6d80;
   0x2010400006480000070c00000696000006480000070400000692000000ff0000002400000c001800000000001ffff0000ffff8001ffff8001ffff0000ffff80;
   0x402c800005b6c00006db6000036d800005b6c00006db6000036d800000b60000324b24008864308000000000b6db6d80db6db6016db6db00b6db6d80db6db60;
   0x2490400003fbe00003efe00005f7c00003fbe00003efe00005f7c000005b00000b00b0010cc2710000000000dbfff6816dfffb00b7ffed80dbfff6816dfffb0;
   0x24900000007fe000007ff00000bfe000007fe000007ff00000bfe000001800000000000186fe6100000000005b6db6006db6db00b6db6c005b6db6006db6db0;
   0x492132000036d800005b6000006db0000036d800005b6000006db0000010000002592400c36ca60124804900b6db6c005b6db6002db6db00b6db6c005b6db60;
   0x24920000007b3800002fb0000037d800007b3800002fb0000037d800000800004901920061beca05fedb7f801b6db0002db6d80016db6c001b6db4002db6d80;
   0x4900000003f9800003f9800003f9800003f9800003f9800003f9800000800000900900031ff8c07ffffffc01feff0000ff7f8001ffff8001ffff8003ffff80;
   0x492c92000036d800005b2c00002d90000036d800005b2c00002d900000100000924800801b6db0016db6db0016cb6c001b65b0002db6d80036db6c001b6db40;
   0x900900001b3800002d900000169800001b3800002d90000016980000080002592492c005ffc001ffc3ff800fe7f0000ff7f80017cbe4001feff8000ff7f80;
   0x100900001f1000003f9000001f9800001f1000003f9000001f9800000800020900904000ff4001ffc3ff800fe7f00007c3e00017c3e4001feff8000ff7f80;
   0xd92492000036c800001b2000002db0000036d800001b2000002d900000b60000924800800b6db0016d82db0016cb60000b65b0002592c80016db68000b6db00;
   0x100024900005f0000003f9000003fd000005f2000003f9000003f800000ff0000492492000dfff800ffc3ff80192c90002492480032492c001b7db0002db6d80;
   0x100024900007f8000007f9000003f8000007f8000007f8000003f800000ff0000490192003dffd800ff81ff00192490002c92580012492c001b7db0002db6d80;
   0x2132490c000b6c00000db0000006d800000b6c00000db0000006d800001b6cb0002592400536d86006d80db0016db6c001b6db0002db6d80016db6c001b6db00;
   0x10402480000f380000067800000f3c00000f380000067800000f3c00003ffed004300a20067ffc300000000001b6db0000db6d80016db6c001b6db0000db6d80;
   0x10402000000e3800001e3800000e3c00000e3800001e3800000e3c001ffffff8001008000c7ffe300000000000b6db0000dbed80016db64000b6db0000dbed80;
   0x20000004001a2c00000c340000161800001a2c00000c34000016180036db6db40324b2400cb6db2800000000016db60000b6db0000db6d80016db60000b6db00;
   0x10402000000c1c00001e1800000c3c00000c1c00001e1800000c3c001b6db6d80182c14010dff9100000000000b6db0000db6d00006db60000b6db0000db6d00;
   0x400000000c1e00001e1c00000c1c00000c1e00001e1c00000c1c001ffffff80080010010cff1800000000000b6db00005b6c80016db60000b6db00005b6c80;
   0x2080180c00080c00000c160000160b0000080c00000c160000160b0036db6db4002c92400186d100000000000b6db6c005b6db6006db6db00b6db6c005b6db60;
   0x400410000c0600001e0f00000c0f00000c0600001e0f00000c0f001ffffff800024000008361800000000005b6db6006db6db00b6db6c005b6db6006db6db0;
   0x410000c0700000e0300000c0780000c0700000e0300000c07801ffffff80002400003000080000000000db6fb6016db6db00b6db6d80db6fb6016db6db0;
   0x25800160001a0580002c068000160300001a0580002c06800016030036db6db40001800001800140000000001b6db6d80db6db6816db6db01b6db6d80db6db68;
   0x12000000006c178000360b00005e0d80006c178000360b00005e0d801f6db6f80000000003000080000000000db6db6816db6db01b6db6d80db6db6816db6db0;
   0x2402000010090000080480002402000010090000080480090000400000000000000080000000000492492012492490092492480492492012492490].
Definition emoji_rows_55 : list N :=
  [0x100000000800000020000000100000000800000000000000100000000800000020000000100000000000000800000000000000100000000000000;
   0x10000000580000002c00000010000000080000002000000010000000180000002800000010000000080000002000002800000000000000580000012000000;
   0x580000002400000010000000000000000000000000000000180000002000000010000000000000000000002400000400000000580000032400000;
   0x2400000034000000580000002c00000010000000480000002490000430400002586000082cb0000410400002082000db00000b00000001b60000025900000;
   0x10000000580000002c000000100000000800000020000004104000061860000b2cb0000410400002082000082000016c00000580000002ff0000037c80000;
   0x580000002400000010000000000000000000000000000006186000092090000410400000000000000000013c80000490000002ff000001fe00000;
   0x2400000034000000580000002c00000010000000480000092490000d30c000061960000b2cb0000410400002082006db6000036c000005b6c00002db20000;
   0x10000000580000002c000000100000000800000020000004104000061964000b2cb20004104100020820000100800b6d800001b6000007ffe00001ff90000;
   0x58000000240000001000000000000000000000000000000618658001248200041041000000000000000001ef90000092000003ffe00001fff0000;
   0x2400000034000000580000002c000000100000004800000124820005b4cb0006196580032c82000490410002092482db6c00016d800005b6d80000db60000;
   0x10000000590000002c80000010000000080000002000000410410006196500032c86000490490002082400010082016db00000b6c00000ff6c00007ff0000;
   0x5b0000002480000012400000000000000000000000000002196400012482000090410000000000000000002ff2000012400000ff7c00003ff8000;
   0x2480000036c000005b4000002d800000124000004900000124820005b6cb0002d96c00032c860004904900020924005b6d80002db00000b6db00001b6c000;
   0x124000025b4000012d80000092400000490000002480000090480002d96c00032d86000090480002090400010082002db6000016d800001b7f80000ff2000;
   0x2db6000012490000092400000002000000000000000000082d94c000124920000904800000000000000000007fe4000124800000bff80000fd3000;
   0x924b0002db6d80016db68000b6db00024924800124920024124920161b6da01b2db6c02c12d960120924800824924000b6db0000db6000006db60000b6d800;
   0x2492480036db6c001b6db00024924800124920000924900120924801b2db6c00c16db60120924800904924004124900005b6c00006db000003fff0000597c00;
   0x36db7c000924b00024924800000020000000000000000000b3db6c004124920020924800000000000000000001ffc8000249000003fff000009fe00;
   0x4924b0002db6d80036db6c005b6db0002492480012492400492492006db6da00b2db6c00596db6002092480092492400016db60001b6400002db6000016db00;
   0x2492480036db6c005b6db4002492480012492400092490002492480036db6c005b6db60024924800124924000924900000b6de0000db0000007ff000003ff80;
   0x36db7c000924b0002492480000002000000000000010000036fb6c0009249200249248000048000000200000001fdf0000480000007ff000001ff80;
   0x4924b0002db6d80036db6c005b6db2002492480012492400092c92002db6da0036db6c001b6db6002492480012492400002db68000125800005b6c00000db60;
   0x2492480036db6c005b6db0002492480012492400092490000492480016db6c001b6db6002492480012492400092490000016fb0000096c00000f92000007ff0;
   0x36db6c00092490002492480000000000000000000002000016df6c00092490000492480000080000000400000002fb0000012400000792000003ff0;
   0x92490002db6d80036db6c001b6db0002492480012492000092490000db6d80016db6c000b6db20004964800124924000005b6c00002db0000016d800001b60;
   0x492400016db60001b6db0002492480012492000092490000492480016db6c000b6db0000492480002492400092490000003db0000016f00000092400000ff0;
   0x16db6000092490000492400000000000000000000002000006df6c00092490000492480000000000000400000000dfc000002f00000010400000790;
   0x92480000db6c00016db60000b6d900004924000124920000924900005b6d80006db68000b6db00004924800024920000000b6c000005b0000002c800000124;
   0x492400006db60000b6d80000492400002490000012480000092400002db6000036db00004924000024920000124900000005b6000003f80000010400000010;
   0x2db0000012480000092000000000000000000000000000002db600001248000009240000000000000000000000003e000000f80000002000000000;
   0x124800001b6000002db0000016c800000920000024900000024800000b6c000005b2000012d80000092400000490000000002c000000160000005900000004;
   0x480000002400000010000000000000000000000000000000090000002400000012000000000000000000000000000000000000000000000000002;
   0x12492490012492400000000000000000000000000002400000000000000000000000000000000000000000000000000000000000000000000000000000000000;
   0x6db6db6c02db6d80000480000000000000000000000db0000002c00000492400492492480000000000080080000c020000160300000804800004020000120100;
   0xb6db6db6036db6c00012400000000000000000000016d800000b6000002492002492492402c80580000402000096030000580580002402000012010000080080;
   0x12492492036db6c00012400000090000000000000036d800004d2400010000400492492007f83ff00020000000b6038000480480002402000010000000000000;
   0x20b2cb0c02db6d800b2c92400036c00036db6db6016db60001b6db00024924804b6db6d92db65b6c00480480016c06c000b60b0000d905800124024000920100;
   0x10410490036c96c00c924960024924805b6db6d800b6db00024f6480032492c0249249243fff7ffc0024024000b60b6000db0580012402400092010000480480;
   0x10012490036c16c00c024820024924800924924800b6db00024d2480030000c0049249203ffffffe0000000000be0be000590490002402400010010000000080;
   0x2d96496c02db6d80192592580492db2036db6db6036db6c005b6db60024924804b6db6d96db6db6c00490490016d16d800b60b6000db05b00024024000920920;
   0x12082490036db6c00c924b28024924904924925805b6db20025f6c80032492c024924924bffffffe0024024000b60b6000db0db0002402400092092000490480;
   0x12082010036db6c00c005b28000124800964824804b6db2002ff7f80030000c004924920fffffffe0000000000be0be000490590002402400010010000080000;
   0xc16586002db6d801924b6c80492cb6032d92496096db6d805b6db6002db6d804b6db6d96db6db6d00490480006d96c000b61b60005b0db00024124000920920;
   0x12082010036496c020005b0c124925b049fc805804b6db2002cb65c00b6db6c824924924fffffffe0024124000b61b60005b0d80002412400012092000490480;
   0x2082090036492c020000904000004b00bfc000804b6db200249248009249248049249207ffffffe00000200003e1f6000490480002412400000010000080000;
   0xd96596002db6d805924924824924b6436db24961b6db65805b6db6016db6db04b6db6d96db6db6c10492480186db6c020b69b60105b2d800824924020120920;
   0x2082490036db6c02492492c124924904b6c925804b6d928024924800b6db6c8249249243ffffffe082492402836db60305b2d80482492402012090010492480;
   0x249003ffffc02492492400000000097492480492c9200249248009249248049249203ffffffe000002002c3edf4010492480082492400000000000000000;
   0xdb2cb2002db6d805b6db6d82492492436d924961b2492d805b6db6012db6db04b6db6d92db6db6c10492480186db6c02c36db60125b6d800824924024124900;
   0x410490036db6c024924924124924904b6c9258059249280249248001249248249249241ffffff8082492402c36db60165b6d80082492400412490010092480;
   0x410410036ff6c024924924000000000b6c9248059249a00249248009249248049249201ffffff8002000000c3edb4012492480082492400010000000000000;
   0x482c32002db6d805b6db6d82492492436db6db61b6db6d805b6db6016db6db0492492490db6db60025924800b6db6c00db6db60165b6d80092c924004924900;
   0x410410036c96c024b24924124924904f6db2580dfeff60024924800b6db6c82492492407fffff00124924005b6db6006db6d80092492400492490002492480;
   0x410400036c16c024b00924000000000ffd92480dfe7f20024924800bffffc80000000007ffffe00004000005bfdb40024b2480012492400002000000010000;
   0x4b2cb2002db6d805b6496d82492492436db6db60b6db6d805b6db6016db6db00924924805b6db6002492480036db6c005b6db6002db6d800125924004924900;
   0x2412480036db6c024b24924124924904ffdb6580cbefb60024924800b2492c80002400002ffff800124924001b6db4002db6d80012492400092490002492480;
   0x2082480036db6c024b24924000000000b6c92480596596002492480030490c00002400000ffff000000800001b7db0000492480012492400000400000000000;
   0x596596002db6d805b6db6d82492492436db6db60b6db6c001b6db00025b6c800004900000b6db0000492480016db6c001b6db0000db6d800124924000924900;
   0x2082080036496c02496d924124924904924924805b6db6000492480032492c000024000001ffc000024920000b6db0000db6d80012492000092490000492480;
   0x2082080036496c024924924000000000924924801b6db0000492400032490c000000000000ff0000000800000b6fb0000496400002492000000400000000000;
   0x5b6db6002db6d805b6db6d82492492400000000016db6c000b6db00025b6c80492492490006c00000492400006db60000b6db00005b6c000024920000924900;
   0x6db6db0036db6c024924924124924900000000000b6db0000092400002492002490092400010000002490000036d800005b6c00002492000012480000092400;
   0x6db6db003ffffc00492492000000000000000000016d80000092000000000000000000000000000000000000016d80000092000000490000000000000000000;
   0x492492002db6d800000000000000000000000000004900000024000004924000924924800000000000120000004900000024000000120000004800000024000].
Definition emoji_rows_56 : list N :=
  [0x80000080492492000000000000000000000000000000000000000000000000000000000000000000000000002000000002492400080410000402080;
   0x92492482492c9640000000000000000000000000000000000000000000000000000240008000000000000001f000000007fffe00196410000cb2180;
   0x924900925924924b2592c90000800000000000000000000012490000c30010002492000002db0036000000092000002d96000000db6db0036596c001b2cb60;
   0x492480496492482592c964000100000000000000000000004924000065104000924900000b6d805b0000000490000030db0000016db6d80432c86002194430;
   0x492400496492482592c9240001e0000000000000000000000924000024904000924900000b6db07d000000041000004071800001ff97d80db6db6002490430;
   0xb6db0096d924924b65b6c90002c00000000000012400080012490000d92d80092492400016db60b60000004924000060b0c00000db05b01b6db6d80cb6d960;
   0x2db6d804964924825b6db2400010000000000000492402400492400086c964004924920001b6db0590000002492000020c06000002402d82db6db6c12cb2c90;
   0x2592c804964924824b6db24000100000000000004920124000904000100824004924920001b6db0092080000082000030c06000000002583ffffffc10432080;
   0x4b65b6092d92492496db6490002c000000000005b6492d90496d92006c924b0492492480036db6c16c120005b2480002db0c000000001b01b6db6d80c924920;
   0x2492480492c924865b2db24000360000004800024b24924024924900324924024924924001b6db601209000249240001ef9c000000002d82db6db6c12492490;
   0x2082000492492486d92cb2c0001e0000000000024924924020000900900004024924924001b6db601248000049040001e7f0000000002583ffffffc10000000;
   0x4964960925924925b6db6db0002c000000920005b6d96d90496d920164924b0492492490036db6c00d90000096c90002c360000000001b01b6db6d80c924920;
   0x64924a0496c92482db6d96400012000000490002db24b64124924900924925824924924005b6db60024800004924800101b0000002402d82492492412492490;
   0x60820204964924824b24b6400000000000400002492492412000090030000082492492400db6db60024000000900800101b2000006c02580000000010492480;
   0x4924960925924924b6db6db0002c000004924005b6d96d925924964164924b04924924901b6db6c00492000016492002836d800005b01b0092492480c924920;
   0x64924b0492c924825b65b64000360000024920025924b6412db6d90192492402492492410db6db400249000009249001c636000002402d82400012412492490;
   0x60b6030492c924825b65b64000120000000100024924924124924900800004024924924105b6db0002480000002010006c16000002402580000000010492480;
   0x496d960925b24925b6db6db00124800024924805b6db6d924924924064924a0492492480cb6db6c024b2400002492400582d800005901b0092492480cb6db60;
   0x64924b0492d92486d96c96c00092000012492402592492412492490032492c024924924025b6db0010492000012492000016c00016d82d82400002412492490;
   0x6092030492d92482d92c96c0000000009a0124024924924124924900100000004924920000b6db0010490000000402000002c0001ff97d80000000010000000;
   0x496d960925b64924b6db6db0012480036db2db25b64b6d92db6db6c06c92480092492486c06db60000164800004925800001b0000db6db0092492480c924920;
   0x64b64a04925b2482d92c96c000b68007fedbedb2d924b24124b6490092592c004924920100b6da0000092400002496c00000d80016db6d82492492412492490;
   0x20b64004925b6c82d924964000ffc007fffffff24924924124924900124924000924900021b6d8000009200000041240000058001fffff00000000010492480;
   0x96d90092496db25b6db6db0016d800b6db6db65b6496d92db6db6c00d964a0012492002c36db6000006c90000092db00001b6000db6db0092492480c924920;
   0x4924804924b2482d92c96400194c007f6db6fb24924b24124b6490010c824000924800105b6da0000012400000492c00003db0016d80002400002412492490;
   0x80492492482d96cb64007986007fffffff2482492412492490000c004000900000001b6da0000012400000092400003fb0002400000000000010012480;
   0x924940924925b25b6db6db00b2cb00b6db6db6592496c82db6db6c000800b0092000000016db6000000590000016d800001b6c10180400092492480c92db60;
   0x2492480492492582db6db6c00db6d807b6df6df2400492012492490000000180480000000002db00000024800000964000001b6582416002490002412492490;
   0x2492480492492582db6db2c02ffff807fffffff0000000012492490000000080400000000000d800000004800000920000001f65924b6000000000010000000;
   0x5b6db60924924b25b6db6db05b2db60b6db6db6000000002db6db6c000000040800000000000b0000000092000006d80000036c36db6c00092492480c924920;
   0x2db6d80492492482db6db6c06c141b07f6db6df0000000012492490000000000000000000000000000000080000032000000180182416000492492002492490;
   0x92000000000000492092002010090492492480000000000000000000000000000000000000000000000000000000000000000080000000000000000000000;
   0x24000000120000024920000024000000120000004800000024000000920020024920000024000000120000004800000024000000120000004800000024000;
   0x920000004900000b65b0000092000000490000012480000092000402490090492492000092000000490000012480000092000000490000012480000092000;
   0x924000024900000fe7f0000092400002490000012480000092400482492080492492000092400002490000012480000092400002490000012480000092400;
   0x924900024924801b6cb6d800924900024924800124924000924900b6db6db65924925800924900164924800124924000924900024924800124924000924900;
   0x2492480012492402db65b6c02492480012492400092490002492480492492482492492402492480092492400092490002492480012492400092490002492480;
   0x2492480012492407ffe7ffc02492480012492400492492002492480492492482492492402492480092492400492492002492480012492400492492002492480;
   0x4924920124924905b6cb6db04924920124924900924924804925b2036db6db65b6492d80492492016c924900924924804b24b20124924900924924804924920;
   0x12492490092492486db65b6c12592c90092492480492492012492d90092492482492492412492490092492480492492012592c90092496480492492012492490;
   0x124924901fe497f83ffe7ffc12fd3f90092492480492492012492590092492480492492012492490092492480492492012792e90096496480492492012492490;
   0x25b24b2436db6db65b6cb6d825b24b64124924900924924825b6496436db6db6096db6c82492492436c924900924924824b25b2412c925900924924824b25b24;
   0x12d92d905ffffff82db65b6c124924900924924824b65b2412d924b0492492482492492412492490492492482492492412d92d900b2492c82492492412592c90;
   0x174924f01ffcbff82ffa5fe4124924900924924825fe7b2413492490492492482492492413c925d0492492482492492412f92f900f2492682492492412793e90;
   0x2d92496416db6db24b6c96d82492492412d92d924b6cb2d825924b24b6db6db6492c964825b25b6436c924924924924824b25b24164924b2496cb64824b25b24;
   0x164924b25ffcbff825b24b24124924924b6cb6c82d92496412592d924b6496c924b65b2412592c92496c964824b25b2412d92d92496c965824b65b2412592c92;
   0x12d92c924ffcbff82492492412c925924b24b2482492492412f92f924be497c824f67f2412fd3f9249fcbf4824fe5f2412792e9249fcbf4824d66b2412792c92;
   0x25b65b6496d92db24924924925b65b24924924925b6496d925b65b24b6db6db64964b64925b65b6492db6d92496cb6c924b24b2492db6d924964b24924924924;
   0x12cb2d924bec97d82492492412d92d924924924824924b2c12492d92496cb64924964b24164924b2492492482492492412492492492492482492492412492492;
   0x12492492492492482492492412492492492492482492492412492492497cbe4824924924164924b2492492482492492412492492492492482492492412492492;
   0x24924924924924924964964924924924924924925b6492d924924924b6db6db64924924925924b2492c92592496492c925924b2496c925b2496492c925b6db64;
   0x124924924924924824b6db24124924924b2492c825924b2412492492496cb6482492492412db6d924b6db6c825b6db6412db6d92496db64825b6db6412db6d92;
   0x124924900924924824ffff24124924900b2492c824f24b2412492490493c9e4824924924135fec90092ff2c82597f9a4135fec90092ff2482597f9a413812190;
   0x24b2492412c92592496db6482496d92416c92592496db6482496d92436db6db6496c96482592496412c925924b2492c82592496436c925b64b2492c825924b64;
   0x125b24900964964824b6db24124b64900b2492c824b6d924124b6490096492c824b6db2412c00590096002c825900b2412c005904920024825b24b2412d92d90;
   0x124f6490093dbe4804bffd20124fe490096493480497c920124fe49009e49348049ff92012f92f9009e4974804f24f2012f92f904924964804ffff2012ffff90;
   0x496d920125b6c90092db6480496c92016d92d90092592480496c92016db6db0092db24804b6db2012db6d90096db64804b6db2036db6db60964964804b6db20;
   0x24924900925b2400496d920024924901b6db6400492492002492490096db64804924920025b6c90096db64004b6db20025b6c90096db64804b00b20025b6c90;
   0x24924800124924004924920024924800b27f2400492492002492480012ff24004924920025ffc80013ffa40049ff920025ffc80093ffa48049ef920024fe480;
   0x492492002492480012492400492492016db6480012492400492492002db6d80012492400496d920025b6c80012db2400496d920165b6cb0012db2400492c920;
   0x4924800124920000924900004924800b6492000092490000492480012492400092490000492480012492000092490000492480012492000092490000492480;
   0x92400002490000012480000092400092490000012480000092400002492000012480000092400002490000012480000092400002490000012480000092400;
   0x124800000924000024900000124800020924000024900000124800005b6c000024900000124800000924000024900000124800000924000024900000124800;
   0x480000000000000000000000000000000000000000000000000000000000000000000].
Definition emoji_rows_57 : list N :=
  [0x0;
   0x124800000924000024900000124800000924000024900000124800000924000024900000124800000924000024900000124820000924000024900000124800;
   0x492400002492000092490000492400002492000092490000492400002492000092490000492400002492000092490000492410002492000092490000492400;
   0x492400002492000092490000492400002492000092490000492400002492000092490000492400002492000092490000492490002492000092490000492400;
   0x492492002492480012492400492492002492480012492400492492002492c800124924004924920024924800124924004924960024924800124924004924920;
   0x2492480012492400492492002492480012492400492492002492480012496400492492002492480012492400492492002492490012492400492492002492480;
   0x2493490092492400492492002012490092492400492492002492490092497c00492492002492490092492400492492002492490092492400492492002492490;
   0x4b25920124924900924924804924920124924900924924804924920124925b00924924804b2592012492490092c92480492496c124924900924924804924920;
   0x12592c90092492482492492410012490092492482492492412492490096c92c82492492412592c900924924824b2592412492492092492482492492412492490;
   0x13c927900924924804924920100024900924924804b24f201249249009fc92480492492012c927900924924804b24f2012492492096496480492492012492490;
   0x25924b64124924924b2492c824b2492412592c924b6496c82492492412c92492492492482d924b64124924924b6496c824924b6c12db6d924924924824924924;
   0x124924924924924825b24b6410f82d924964964825924964124924924b24964824b25924164924b24924924825924b64124924924b2cb2c82492492412492492;
   0x12792c924924924825f24f2410f82f9249749e482c9249641249249249249e4824ba5f2412492492496496482492492412492492492492482492492412792e92;
   0x24b25b2492492492496cb64924b25b6492d92d924924965924b65b2492d92d92496cb64925b24b6492d92d924924924924b25b6c92d92d924924924924b25b24;
   0x12592c92496c964824b65b24104124924964964824b65b24125b6c92496c964824b25b2412d92d92496c96482492492412d96d924b6cb6c825b65b2412d92d92;
   0x12792e9249fc9fc825924be4100024924964964825b67b2412cf679249ec9e4824ba5d24127d3e9249749e482492492412dd6d924924b24825fe7fa412f92f92;
   0x24b25b2492d92d924b2492d924924924924924925b64b2d924964b24924b2c92492c964925b65b2492d92d92496db6492596c924924924924924924924b25b24;
   0x12592c924b2492c824924924124924924924924824924b2c12492492492492482492492416c925b24964964824b65b2412492492492492482492492412492492;
   0x124924924924924824924924124924924924924824924924124924924924924824924924164924f24924924824b2592412492492492492482492492412492492;
   0x24924924124924924b6db6c825b6db6412db6d925b6d96d82492492416cb24924924924824924964124924924924924824924924124924924924924824924924;
   0x124924924924924825b6db2412db6d92496db6c824b24924124b24925b6c92482496492412492492492492482492492412492492492492482492492412492492;
   0x124924900924924825f2cf2412f92f9009e597c824b24924124924907fec9248249e492412593c90092f924824924924124924900927f24824b6d924125b6c90;
   0x2496c924124b6490096db6c825b6db2412db6d900b2c92d824964924b6cb2490092c924824b65924125b6490092492482496d924125b6c90096db64824b6db24;
   0x124b6490092db24824b6db2412db6d90096db64824964924125924905b6592482496492412db6d90092492482496d924124b6490092db6482492492412492490;
   0x24ff490092ff24004b2c92002592c9009259640049e4920024f24907fa4924004964920026be690092492400496c92002492490092496400492492002492490;
   0x496d920125b6c90092db64804b6d920125b6c90092c92480496492036c92490092d924804b2cb20124924900924924804924920124924900924924804924920;
   0x2492480012492400496d920025b6c80012db24004b24920025924800b2c92400492492002492480012492400492492002492480012492400492492002492480;
   0x2492480012492400092c9000249248001259240009e49000249248001249240009a490002492480012492400092490002492480012492400092490002492480;
   0x92490002492480012db2400096d900025b6c80012d92400096c900024b2480012d924000924900024924800124924000924900024924800124924000924900;
   0x492400002492000096d900004b6400002db2000092490000492400002492000092490000492400002492000092490000492400002492000092490000492400;
   0x92000000490000002400000092000000490000002400000092000000490000002400000092000000490000002400000092000000490000002400000092000;
   0x24000000120000004800000024000000120000004800000024000000120000004800000024000000120000004800000024000000120000004800000024000;
   0x2400000000000;
   0x92000000490000002400000092000000490000002400000092000000000000002400000092000000490000002400000092000000490000017f80000092000;
   0x92490000492400002492000092490000492400002492000092490000492400002492000092490000492400002492000092490000492400016db60000924900;
   0x4924800124920000924900004924800124920000924900004b64800124920000924900004924800124920000924900004924800124920001b6db0000492480;
   0x2492480012492400092490002492480012c924000924900024f64800000000000924900024924800124924000924900024934800124924005ffffe002492480;
   0x5b24b2002492490092492400492492002592c90092492400496592002592c90092496400492492002492490096496c004b65920024924900b6db6d004924920;
   0x2c92590092492400492492002492490096c96400492492002592c90096c964004b25b20024924900924924004b25b2002592c90092492400db6db6002492490;
   0x64924f00924924004924920024924900be496c00492492002792c9001e013c005924ba00249249009349a40049e592002e9279009749e400ffffff802492490;
   0x2c92496412492490092c96482492492416c925b00924924824b24b2416c925b00b2492c82492492412592c90092cb24825b24b6412d92d901b6db6d824924924;
   0x164924b00924964824b24b2412592c900924924824b24b24124924900b24924824924964124924900964964824964924124924900b2492c82db6db6c12492490;
   0x12792c90097c9e4824f24b2412792e900b6492c825f24ba4124b64900804904024924924124924900fe493e824964924124924900b2492483ffffffc12492490;
   0x24b25b2412d92d924b6492c824b25b2416d92db24b6492c825b65b24124924924964964824b24b2416c925b24924b24824924924164924b25b6db6da24924924;
   0x12592c92496c96482592496412592c92492cb6482c92496412d92d924964964824b24b2412592c92496496482492492412492492496496486db6db6c12492492;
   0x12793e92497c9e482492492412792e92497cbe482c92493412592c9201749e4024f24f2412792e9249749e48249249241249249249749e487ffffffe13c927d2;
   0x24b25b2492592c924b6cb6c924b25b2492d92d92492492592492492492d92d92496c964924b25b2492d92d924b6cb6c925b24b6492d92d925b6db6db25b65b64;
   0x12592c924924924825b65b64124924924b2492c82492492412492492496c964824b25b2412d92d92496c964824b25b2412d92d92496c96486dbeff6c12592c92;
   0x124924924924924824924924124924924924924825967b241249249209749e4824f24f2412792e9249749e4824924924125d3c9249749e487ffffffe12793c92;
   0x2492492492492492496496c924b6db2492492492496cb6492496d92492592c924964964924b24b2492592c924924924925b65b6492592c925b6db6db24b65b24;
   0x12492492492592482492492412db6d924924924824924924125b6c92492492482492492412492492492492482492c92416c925b2492492486dfedf6c12592c92;
   0x124924924927f2482493c92413cb65924925b2482492492412600492492492482492492412492492492492482493c924164924b2492492487ffffffc12792c92;
   0x2492c924124b64924965b6c825b24964125b6c924924924824924b2412492492492592482492c924124924b2492596482492492412492d925b6db6da24b24924;
   0x124b6490092db2482496c924125b6c90096496482492492412cb65900925b2482496c924124b64900925b2482482432412492490092592482db6db6c12492490;
   0x124be4900927f2480496e920124b64d0096db6480497c92013ffff90092ff2480497f920124fe490092ff24804824320124be4900927f2483ffffffc12492490;
   0x2496c924124b6490096db6c825b2496412db6d901b2db24825b6db64125b6c90092db2482496d924125b6cb6092492482496d924125b6d901b6db6d82496d924;
   0x124b64900925b2480496d92012cb6590096db6c82496d92012db6d90092cb2480496592012592c90092cb24804824120125b6c90092db2480dbffb68125b6c90;
   0x2492490092592400496c92002ffff9009e497c02492592003f92f90092492400492492002492490092492480002400002597c90092492400fffffe002792c90;
   0x492492002492490096596c004b6db2002c925905b24924005924b20024924900924924004924920024925b60924924804b25b2002492d900b6db6d004b24b20;
   0x24924800124924000924900024924800124924024924900024924800124924000924900024924800124924904924920024924800124924005b6db6002492480;
   0x4924000024920000924900004924000024920024924900004924000024920000924900004924000024924800024000004924000024924001ffff0000492400;
   0x924900004924005b6db6d900924900004924005824920000924900004924000024920000924900004924b6092492480092490000492d80016db60000924900;
   0x92000000490002492492400092000000490002412480000092000000490000012480000092000000490080492492000092000000492000016d80000092000;
   0x2400000000000].
Definition emoji_rows_58 : list N :=
  [0x20000004100000024000000820000004100000024000000820000004100000020004800000024000000120000024800000024000000120000004800000024000;
   0x10000012480000082000000410000012480000082000000410000012480000080012480000092000000490000036480000092000000490000012480000092000;
   0x10000012480000082400002410000012482012082400002410000012480000080012480000092400002490000032480000092400002490000000000000000000;
   0x2c92492cb64924b6592492592c92492cb6d92db6592492592c92492cb64924b60124924000924900024924805b2c924000924900024924800124924000924900;
   0x124924924924924824924924124924925b6cb6d82492492412492492492492480092490002492480012492406d96d90002492480012492400092490002492480;
   0x124924924924924824924924124924925ffcbff8249249241249249249249248049249200249248001749e402496c92002792c8001749e400000000000080400;
   0x2c92492c32492496592492582db24b6cb6db6db6592492582c92492c32492496092492480492492012d92d90196cb24805b25b6012d92d900924924804b25920;
   0x12592c92492492482492492412f92f925b6cb6db24924924124924924924924804924920124924900b2492c80c92492012c925900b2492c80482412012592c90;
   0x13f92f900be493c82492492412793c907ffcbfff24924924124924900924924804924920124924900f2492680c925920164924f00f2492680000000002600680;
   0x25b24b6416d92db2496496c824b65924b6db6db64924924825b24b2412d92d920924924824924924164924b05b25b2482c924964164924b00924924825b24b64;
   0x16592cb0097cbe4825f24b6412592c905b6cb6da24b2492412d92f900be497c824b25b2412492490092492486d924924120920900964964824024024164925b0;
   0x1e792cb0097c9e48079249e012792c905ffc9ff804b24f20174924f00b2492c825f25ba412492490096cb2482492492410010010097c9e480000000000492400;
   0x2cb25b2412592c924b2492d824b25b2436d92db6496c96482d924964164924b24b6492c824b24b2412d92d924924924824b24b2412d92d924924924824b24b24;
   0x12792c90097c9e482c92492412792c900b6c96d824b25f24164924b0092492582492492412d92d92496c96482492492410790e12496c96482402402412d92d92;
   0x12792c9009749e4824fa5f2412792c900be497c824b24f2412f93f90097c9e482492492412f92f92497c9e482492492410f80f12497c9e480402402002f92f90;
   0x24b24b2412592c92496cb6c824b24b2412d92d924964964825b65b2412db6d924924924824b25b2492db6d92496db64924b25b2492592c924924924924b25b24;
   0x12492492492492482492492412492492492492482492492412492492492492480480012012d92d92496cb24824b65b2412590c12492492480492c92012d92d92;
   0x4924000024920000124800004924000024920000124800020924800024920000000000124924924924924824be5d2412010012492492482097e90412492492;
   0x2496cb24924b64924925b2492496c924924b64924925b2492496c964924b64924924924924924924924b6492492492492c92496c924b6492492db24924924924;
   0x124b6492492592482492c924124b6492492592482492c924124b64924925924824000024124924924925b24824924924124924924925b2482096d90412492492;
   0x4924800124920000924900004924800124920000924900124924900124920024000024124924900927f24824924924124924900924b248209ff90412492490;
   0x24924b6412492492492592482492492412c925924b6492c82d924b6c12c925924924924824924924124b64924925b2482db24b6c12492492492db2082496c96c;
   0x124b64924924924824964924124924924b6c96c825b25b6412592c924b6c96c82480012412492490092db2482496c92412492490092c12482496d924124b6492;
   0x124fe4900927f2482492492412792490092490482412482412092492092490480000000012492490092ff2480493c92012492490092c9248249ff924124ff492;
   0x2496db64125b6c92492c924824b6c92412d92d92496496c86db24b6c12d92d920924924804924920125b6c900925b2480596d960125b6c90492db2480496d96c;
   0x125f6490093dbe4804964920125b649009fdbfc805f6df2092fb6f9209fdbfc80480012002492490092db2400492c920024b6490092db2402496d92402492492;
   0x279249001249640049e492002492480017ffe4004ffff20127ffe92017ffe400400002002492480012ff2400492492002492480012ff240249ff92402492492;
   0x4b25b6002492490092c924004924920025b6c90096db6406cb6db2c025b6c900124924004924920024b64800124924004924920024b6480492db2480492496c;
   0x24924800124924000b2490002492480012db2400096d900124b6492012db2400092490000492480012592000092490000492480012592002496c92400492492;
   0x492480002492000012480000492400002492000012480000492400002492000012480000092400002490000012480000092400002490002412c82400092490;
   0x124b0000092400002d900000124800000924000024900000124800000924000024900000124800000924000024900000124800000924004824904800124824;
   0x2000000000000000000000000000000000000000000000000000000000000000000000000000000000000000000002400002400000000;
   0x480000000000000000000000480000000000000000000000000000000000000000000000480000000000000000000000000000000000000000000;
   0x6c800001b6c00000580000006c800001b6c00000480000002400000092400000d80000006c800001b6c000024900000124800000924000024900024000024;
   0x1b6c00006db6000016d800001b6c00006db600001240000009200000249200003ff800001ffc00007ffe000092490000492400002492000092490012000092;
   0x7ffc00007fff80003ff800005ffc00007fff80000000000000000000000000007ffc00007ffc00007fff800092490000492400002492000092490012000092;
   0xb6db0000db6d80016db60000b6db0000db6d80002492000092490000492480016db60000b6db0000db6d80012492400492492002492480012492402c92496c;
   0xdb6d00016db6c001b6db0000db6d00016db6c000924900004924000124924001ffff0000ffff0001ffffc00492492002492480012492400492492012492492;
   0xffff8001ffffc001ffff8000ffff8001ffdfc000000000000000000000000001ffff8000ffff8003ffdfc00492492002492490092492400492492012010092;
   0x1b6db0002db6d80036db6c001b6db0002db6d80012492400092490002492480036db6c001b6db0002db6d80092c96480496d92012492490092492482c92492c;
   0xdb6d80036db6c001b6cb4000db6580036d96c000924900004924000124924001ffcbc000ff678003ff97c024324b24125b6c90092492482492492412010092;
   0xfb658003fc93c001924b8000c9258003fc92c000000000000000000000000003da03c000c9218003fc03c004380f2012792c900924964804b2492010010010;
   0x1b6db0002db6d80036db6c001b6db0002db6d80012492400092490002492480032492c00192490002d92580496c96c824b24b2412592c92496c964824924924;
   0xdb6d80036db6c00192594000c92580032c92c0009249000049248001249240019249c000c92580032492c024300b2412c92592496c964824b25b2412010010;
   0xd93c80032cb2c0019a598000493480032c92c00018180000083000000c10000398198000083000030c10c02000000412492492497c9e4824fa5f2410010010;
   0x61b6db0492db6d82436db6c120b6db0482db6d82412cb2002096590402592c82432cb2c02096590402592c82492492492492492492d92d92496c96492492c924;
   0x30db6d965b6db6c821925904104924124b2c92c82092490410492402412492482192490410492402432492c824024024124924924964964824b24b24120b6092;
   0x124924100b2492c80592492010492410092492c80000000000000000000000000180010000000000010000c02402402412492492492492482492492412092010;
   0xdb6db6816db6db00b6db6d80cb6db6016db6db0092592480492c92012c92590092592480492c92012c925904924924924b24b2492492492492492492492c924;
   0x16db6db00b6db6d804b24b2002c925900964964004924b20024924900964964004924b2002492490096496402492492412d92d92492492482492492412492492;
   0x2492480036596400092490002492480016496400092490002482480016496400092490000482400006496402492492412f92f92492492482492492412092402;
   0x1b6db0002db6d80016db64000b6db0002db6d80016db64000b6db0002db6d80016db64000b6db0002db6d804924924824b25b2412492492492492482496c924;
   0x5b6c00036db6c00036d800005b6c00036db6c00036d800005b6c00016db6400036d800005b6c00036db6c02496492412d92d92492496482496c924104fe492;
   0x92c0001e4b7c00012480000092c0001e4b7c00012480000092c000024b2000012480000092c0001e4b7c024bfc9241269249009249648249ff924104fe412;
   0xb6d90002db6d80002db60000b6d90002db6d80002db60000b6d900005b6c80002db60000b6d90002db6d80092db24824924924125b6c90092db6482496d924;
   0xdb6d80016db6c000b6db0000db6d80016db6c000b6db0000db6d80016db64000b6db0000db6d80016db6c02492592412492490092db24824b25924124fe412;
   0x24b2480012d924004964920024b2480012d924004964920024b2480016d92c004964920024b2480012d924004924920024924900924924004924920104fe410;
   0xdb6db6016db6db00b6db6d80db6db6016db6db00b6db6d80db6db6016db6db00b6db6d80db6db6016db6db0092492480492492012492490092492482496d924;
   0x16db6db00b6db6d80db6db6016db6db00b6db6d80db6db6016db6db00b6db6d80db6db6016db6db00b6db6d804924920024924800124924004924920124fe410;
   0x124b6490092db2480496c920124b6490092db2480496c920124b6490092db2480496c920124b6490092db24800924900024924800124924000924900124fe410;
   0xdb6db6816db6db00b6db6d80db6db6816db6db00b6db6d80db6db6816db6db00b6db6d80db6db6816db6db0012492400092490002492480012492402496d924;
   0x16db6db00b6db6d80db6db6016db6db00b6db6d80db6db6016db6db00b6db6d80db6db6016db6db00b6db6d800924900004924000024920000924900124be412;
   0x12db6d900b6db6c804b6db2012db6d900b6db6c804b6db2012db6d900b6db6c804b6db2012db6d900b6db6c80002400000092000000490000002400012012010;
   0x4924920124924900924924804924920124924900924924804924920124924900924924804924920124924900004800000024000000120000004800024024024].
Definition emoji_rows_59 : list N :=
  [0x2400000000000000000000000000000000000000000000002400000000000000000000002000000000000000000000002c00000000000;
   0x90000000480000017c8000000000000000000000000000009000000058000001fc800000000000000800000124000000ba0000007f000001ff80000090000;
   0x96c900004b6400002db6000092490000492400002492000092c900004b640000259200001248000009240000249200003ff800001ffc00007ffe000036d800;
   0x24b6480012db2400096d900004924800124920000924900004be480012db2000097d900004924000024920000924900007ffc00003ffe0000ffff80005b6c00;
   0x25ffc80013ffe4000bff900000000000000000000000000007ffc00003ffe00003ffc0000492400002492000092490000ffff00007ffe0001ffffc000ffff00;
   0x5b6db6006db6db00b6db6c004924920024924900924924004b6db2002db6d90096db64000924900004924000124924001ffff0000ffff8001ffffc001b6db00;
   0x16db6db00b6db6d80db6cb60124924900b2492580d92496012ffef900b7ffec80dffcf6000492480002492000092490003ffff8001ffff0001ffffe002db6d80;
   0x12ffef9009fff7c80dffcf6012000090090000480c00006012ffef9009ffffc80dffcf6000492480002492000092490003ffff8001ffff8003ffffe003ffef80;
   0x2db6db6c16db6db01b6db6d82c92496c164924b01b2492d82db6cb6c16db65b01b6d96d800924900004924800124924005ffdfc000ffef8003ffb7c005b6db40;
   0x16db25b01b6d92d82db64b6c164924b01b2492582c92496c16d925b01be593d82dfe4bec02492480012492000092490003ff6f8001fdb78007fedbe002db6d80;
   0x13c9259009a49348259249e412000010080000482400002413c80190098003c8259001e402400080010002000090010003fb6fc001efb78007fedbe003d92580;
   0x2db6db6c36db6db65b6db6d82c92592c364924b65b2c92582d92596c36c925b65b2c92d80092590000492480012c924005b6dbc002db6d80036db6c005b6db40;
   0x36d93c96592cb2586d9e596c36493496592cb2586c9e592c37493496592c92586d9a59ec02493480012cb200009a590003df7d80017db6c007befbe002db7d80;
   0x13493492492c9208279a59e410083012480c10082c18182413083092480c1008279819e400083080000c10000098190003df7d82417dbe8027befbe403d93d82;
   0x6db6db2cb45b6cb65b6db6db6c92592cb44924b6592c925b6d92592cb44924b65b2c92db2092590410492492492c92486db6db2cb0db6d965b6db6db65b6db2c;
   0xb24924965824921b6d92496cb04924965824921b6c92492cb24924965824921b6f9249ec12492490082492080492492017db6db0196db6582db6dbec16db6db0;
   0x9049249248249209279249e410010012480080092c0240241001009248008009278241e40041000008208200008241001fdbfdb01f7ffef80dbfdbf812492490;
   0x6cb6db2cb45b6c365b6db6db6c92492cb44924365924925b6c92492cb44924365b2492db04b24b2012d92d90096496480db6db6016db6db00b6db6d80db6db60;
   0x344924365824921a6d96c96c344924365824921a6c92492c344924365824921a6d9249ec02592c80016c964004b25b2002db6d80036db6c005b6db6002db6d80;
   0x10092412482490482597c9e410092012480490482c03c02410012012480490482783c1e4004924000024b20000b6db0000492480012592800392d9c000492480;
   0x2c16d86c361b6cb65b6db6d82c12486c360b64b65b2592582c12486c360b64b65b6596d800b6db00005b6c00016db64000b6db00005b6c00036db6c000b6db00;
   0x360920b65b0490582db24b6c360920b65b0490582c92496c360920b65b0490582df24f6c001b6c00002db00000b6d900001b6c00002db00001f6dbc0001b6c00;
   0x120120900904804825f25f24120000900900004824000064120000900900004825f81f2c000924000024920000924900004924000024920001f24b8000492400;
   0x2d92c96c36cb65b41b6db6d82d92496c36c925b41b2492d82d92496c36c925b41b6cb6d800b6db0002db6d80016db6c000b6db0002db6d80016db6c000b6db00;
   0x16d92db01b6c96d80db25b6816d92db01b6c96d80db25b6816d92db01b6c96d80db25b6802db6d80036db6c005b6db6002db6d80036db6c005b6db6002db6d80;
   0x124924900924924804925920124824900924124804b01b20124824900924124804901920024b2490092592400496c920024b2490092592400496c920024b2490;
   0xdb6db6016db6db00b6db6d80db65b6016d92db00b6cb6d80db65b6016d92db00b6cb6d80db6db6016db6db00b6db6d80db6db6016db6db01b6db6d80db6db60;
   0x16db6db00b6db6d80db6db6016db6db00b6db6d80db6db6016db6db00b6cb6d80db6db6016db6db00b6db6d80db6db6016db6db00b6db6d80db6db6016db6db0;
   0x2492490092492400492c92002492490092492400492c92002492490092492400492c920124b6490092db24804b6d920124b6490092db24804b6d920124b6490;
   0x5b6db6006db6db00b6db6c005b6db6006db6db00b6db6c005b6db6006db6db00b6db6c00db6db6016db6db00b6db6d80db6db6016db6db00b6db6d80db6db60;
   0x6db6da00b6db6c005b6db6006db6da00b6db6c005b6db6006db6da00b6db6c005b6db6016db6db00b6db6d80db6db6016db6db00b6db6d80db6db6016db6db0;
   0x12492400092490000000000012492400092490000000000012492400092490002492490092492400492492002492490092492400492492002492490;
   0x400002002000000000000400400002002000000000000400400002000000000000000000002400000000000000000000006c00000000000000000000002c000;
   0x2000000000000400400002002000000000000400400002002000000000480000002400000092400000580000007c000001fec00000580000002c000001b6c00;
   0x2000080010000400000000002000080010000400000000002000080000080000002400000010400002ff2000097f900007fff00002592000013c800004be400;
   0x2182010402000082410000c02180010402010082410000c02182010402492480012492400092490002dbed80016ff6c001b7db0002db6d80016db6c001b6db00;
   0x100b6082410480082000000410010082410fb00820024004100b6082012492400092490002492480037ffec005bfff6002fffd80036db6c005b6db6002db6d80;
   0x101ffc10080000080000000010000010083ff0080017f800107ffc100024920000924900004924000bffffc005ffff6006ffffb0097ffe4004ffff2002ffef90;
   0xcb6db2014492430082490180c92492014db6c30082db6180cb6db2016c925b00b2492d80d92496016ffffb00bffffd80dffdf6016db6db00b6db6d80db6db60;
   0xdb6d8000249200001248000049248001fffe00003fff0000ffff800b2492580d924960164924b00bffffd80dffff6016ffefb00b6db6d80db6db6016db6db0;
   0xffff8000000000000000000000000001ffff8000ffff0001ffffc00924824804924120164904b009ffffc805ffffa013ffef9009ff97c805fffb2013ff2790;
   0x1b6db6002492480002492000092490002db6d80016db60001b6db60164924b01b2492582d92496c17db6fb01bedb7d82dfedbec16db6db01b6db6d82db6db6c;
   0x2db6d8001249200009249000249248003ffffc001ffff0003ffefc0192492582c92492c364924b41bfdb7d82df6db2c37fb6db41b6db6d82db6db2c36db6db4;
   0x3ffefc000000000000000000000000003ff87c001fffb0003ffefc04904104824900924160820b24bfdbfc825fefba413df7dd24b2c92c82592592413c925d2;
   0x5b6db6002492480012492000492492002db2580016db28005b6cb6036592cb6592cb25a6c96596c37db7db6596db6da6dbedbec36db6db6596db6da6db6db6c;
   0x2db258001249200009249000249248003ec93c00192490003ff27c0592c921a6c9a592c364934b65b6db6da6dbefb2c37df7df65b6db6da6dbedb2c36db7db6;
   0x3ff25c0000000000000000000000000030000c00180010003ff05c049041008241008241208209249fdbf8824befb2417df7df2492c92882492592417c925f2;
   0x5b6db6002492480012492000492492002c925800124920005b24960b24924965824921b6c92496cb3db6d96586db61b6fb6dbecb2db6d96586db61b6db6db6c;
   0x2c92480012492000092490002492480032492c000924900034924c05924921b6c12482cb64924b6596db69b6cb6db2cb7db6df6596db61b6cb6db2cb6db6db6;
   0x34934c0000c10000018180000083000010c108000181800030830c048008008240240241201009249eff70824b7db2417dbedf2482492082412482417c925f2;
   0x5b6db6000592c80002cb2000496592002d92c80002cb20005965960b64b64365824925b6c96c96cb6db6c36586db65b6fb6dbecb65b6c36586db65b6db6db6c;
   0x2492480012c92400092590002492480012492c00092490002492480582590586c12482c364b64b6582ff6586c36d82c37db6ff6582db6586c36d82c36db6db6;
   0x24924900900004004800120020000900900004004800120020000904800804824024024164104b2482ff048241ff82413fbefd2482490482416c82413cb6792;
   0x2db6db6c16c925b05b2492d82d92496c36c925b65b2492d82d92496c360920b65b0490582d92496c360b60b65b0db0582df6df6c360b60b65b0db0582db6db6c;
   0x36c925b65b2492d82d92496c36c925b65b2492d82d92496c36c925b61b0480582d82416c164924b01b05a0582d86c16c16fb7fb01b0580582d82c16c16db6db0;
   0x12c92592492082482482412412c10592490082482480012412c101920900004824800124124824900907c0482482c12412ff7f90090480482482412412f93f90;
   0x6db6db6cb6c925b65b6496db6db24b6cb6c925b65b6496db6db24b6c16d92db01b6c96d82db65b6c16db6db01b6db6d82db6db6c16db6db01b6db6d82db6db6c;
   0xb6d92db65b6496db6db24b6cb6d92db65b6496db6db24b6cb6d92db60b6c96d80db25b6816d92db00b6db6d82db6db6c16db6db00b6db6d80db6db6816db6db0;
   0x92d92d92492492482492492412d92d92492492482492492412d92d92092412480492492002482490092592480492c920024b6490092492480492492002492490;
   0x6db6db6cb6db6db65b6db6db6db6db6cb6db6db65b6db6db6db6db6c16db6db00b6db6d80db6db6016db6db00b6db6d80db6db6016db6db00b6db6d80db6db60;
   0x365b6cb6592db2582c96d92c365b6cb6592db2582c96d92c365b6cb60b6db6c00db6db6006db6db00b6db6c00db6db6006db6db00b6db6c00db6db6006db6db0;
   0x12492490080490482412482412092410080490082412482412092010092492400492492002492480092492400492492002492480092492400492492002492480;
   0x2db6db6c164924b0192492582c92492c164924b0192492582c92492c06db6db00b6db6c005b6db6006db6db00b6db6c005b6db6006db6db00b6db6c005b6db60;
   0x2492490080000000400002000000010080000000400002000000010012492400492492002492480012492400492492002492480012492400492492002492480].
Definition emoji_rows_60 : list N :=
  [0x480000002000000010000000000000000000000000000000000000000000000000000000000000000000000000000000000000000000000000000;
   0x6c924001b6c90000580000002c000000360000300004004000060020000800300004004000060020000800300004004000060020000800300004004000060;
   0x1ffc90007ff6480002c00000016000000580000000000002000080010000400000000002000080010000400000000002000080010000400000000002000080;
   0x7ff090007ff2400012480000092000000490000000000000000082410000000000000000000082410000000000000000000082410000000000000000000082;
   0xb6d92400db6c90002db6000036db00005b6c00490490082082410430092096492fb0082082c104301b6496492db00820824104300b6496492db00820824104;
   0xfffc9001fff24800b6db00005b6d80006db600241248241009201008249208243ff824100ff810083ffe082436d824100b6010082db6082436d824100b6010;
   0xfffc0003ffdc0000924900004924800124920004124820000924100824920004ffff20001ffc10087fff0004ffff20001ffc10087fff0004ffff20001ffc10;
   0x1b6db2402db6c90016db6c005b6db6002db6d8001249200041249200049248001ffff0004bfff2000ffff80016db60004b6db2000db6d80016db60004b6db20;
   0xff649003ff96480192c96006c925b0036596c000924900004924000124924001ffff8000ffff0001ffffc001b6db0000db6d00016db6c001b6db00005b6d00;
   0xc9209003fc02480492492012492490032492c000924900004924000124924001ffff8000ffff8001ffffc001ffff8000ffff0001ffffc001ffff8000ffff00;
   0x192496c02d925b40b6db6c02db6db6c36db6db601249240009249000249248003ffffc001ffff0003ffefc0036db6c001b6db0002db6d80036db6c001b6db00;
   0xc925b0032492d804924920164924b04b64b65800924900004924800124924003ffdfc000ffff8003ffffc001b6db4000db6d80036db6c001b6cb4000db6d80;
   0x83090030c10c80492492016592cb04d24926800920100004920000124824003ffdfc001ffff8003ffffc003fecbc000ff678003ffdfc001fe4b8000f92580;
   0x96596c02592db41b6db6d82db6db6c36db6db601249240009249000249248003edb7c001f6db0003ff6fc0036db6c001b6db0002db6d80036db6c001b6db00;
   0x4924b0032492d824be5d2416793cb2492d924800924900004924800124924003b6dbc001db6d8003ffb7c001b6db0000db6d80036db6c00192490000c92580;
   0x90030000c824be5d2412793c920924924800800100000000000120004003b6db8001db6f8003ffb7c00192498000c9258003ec92c00192498000492480;
   0x92c96c02c925b41b6db6d86db6db6c36db6db6012492000092490002492480036db6c001b6db0003db6dc0036db6c001b6db0002db6d80036db6c001b6db00;
   0x4924b0032492d80cb25b6012592c92092cb2480092590000492480012c924001befb8000df7d80036db6c001bedb0000db6d80036db6c0019e590000593c80;
   0x90038002c80592492012496492092492480098180000083000010c104001befb80005f7c0003fdbfc0019e590000593c00032cb2c0019a590000493400;
   0x16c96c02cb65b40b6db6d02db6db6c16db6db0012c92400492592002492480016db6c004b6db2006db6da0016db6c004b6db2002db6d80016db6c004b6db20;
   0xb60b003e5b2d80d96c960364b64b60b64965805924960164924b00b2492c805b6db6016db6db00b6db6c805b6db6016db6db00b6db6c805924960164924b0;
   0x1009001e087c805924960164924b20924924024800124120000900b0000c824b6db2412db6d90096db6482492492412492490092492c82492492412492490;
   0x2416c02d92db40b6db6d02db6db6c16db6db05b2592d86d92c96c36c925b65b6db6d86db6db6c36db6db65b6db6d86db6db6c36db6db65b6db6d86db6db6c;
   0x120b0016c96d80592d960365b6cb60b6db2d86d92496c36c925b65b6492da6db6db6c36db6db65b6db6da6db6db6c36db6db65b6db6da6d924b6c36c925b6;
   0x2482490016c16c824924964165ffcb2093ffa48249009241240049249600249249ef924925f7c92492db6492492492492492492496492492492492412492492;
   0x5b65b6c06d92db05b6db6db6db6db6c16db6db05b6496db6db24b6cb6d92db65b6db6db6db6db6cb6db6db65b6db6db6db6db6cb6db6db65b6db6db6db6db6c;
   0x6d92db0036cb6d86d92d96c36cfe5b61b6ff2d86db25b6cb6d92db65b6cb6db6db6db6cb6db6db65b6db6db6db6db6cb6db6db65b6db6db6db65b6cb6d92db6;
   0x24924900164b24824924924164be4b2096592482492492412492492492cb64824924924124924924b6592c82492492412492492492db6482492492412492492;
   0x5b6db6006db6db05b6db6db6cb6db6c16db6db0592db6582cb6d96c365b6cb65b6db6d82db6db6c36db6db65b6db6d82db6db6c36db6db65b6db6d82db6db6c;
   0x6db6db0036db6c06c92db2c36192c361b2cb2d82c92492c164924b0192592582db6db6c16db6db01b6db6d82db6db6c16db6db01b6db6d82c92c92c164b64b0;
   0x2c924800164924020124804160120320904804804000020100100100800801805befbe016df7db00b7dbec80492492012492490092492580492492012492490;
   0x4924900024924804000000124000024120000900924924804924920124924900924924804924920124924900924924804924920124924900924924804924920;
   0x10000000000002000000000090000000480002c02000000090000000480002402000000090000000480002402000000010000000000000000000000000;
   0x900000804800124000000ba0f80007f0d8001ff9fc0009009000059058001fc9640009009000058048001fc920000000900000004800000000000b0090;
   0x1249240009249000249248003ff96c001ffdb4007ffed80036d96c001b6db4006db6d80036d96c001b6cb0006db6d80012492400092490002492580036d924;
   0x4924900024924800924924007ffdb4003ffed800fffb6c005b6db0002db6d800b6db6c005b6c90002db24800b6db24004924900024924800924924007ffc90;
   0x492090002490400092480000fffff8007ffed801fffbfc00fffc90007ff25800fff96400fff490007ff24800fff92400000090000000480000000000fff010;
   0x924924004924900124924801fffb6c00fffdb401fffed801b6db6c00db6db4016db6d801b6db6c00db6db0016db6d800924924004924900124924801b6d924;
   0x492490002492480092492403fffdb401fffed801ffff6c02db6db0016dbed801b6db6c02db6c90016db64801b6d92400492490002492480092492403ffec90;
   0x492400002492000092480003fffff801fffed803ffff6c03ffec9001fffe4803ffcf2403ffec9001fff64801ffcd2400000000000000000000000003ffec00;
   0x924924004924900124924805ffdf6c00ffefb403ffb6d805b6db6c00db6db4036db6d805b6db6c00db6db0036db6d800924924004924900124924805b6cb24;
   0x2492490012492d80092496c03ff6fb001fdb6d807fedb6c02db6db0016db6d805b6db6c02db25b0016d92d805b64b6c02492490002492d80092496c03d92590;
   0x2400090010002480090016c03fb6c9001efb64807fedb2403d9249001e4924807f2496c03c9249001a4924803b2496c00000090000002480000016c03c80090;
   0x92596c004925b4012c92d805b6db6c02db6db4036db6d805b6db6c02db6db4036db6d805b6db6c02db6db4036db6d80092596c004925b4012c92d80592596c;
   0x24934b0012c92d8009a596c03df7db0016db6d807befb6c02db7db0016db6d805b6db6c02d93db0012cb2d8059e596c024934b0012cb2d8009e596c034934b0;
   0x83090000c10480098192403df7c90017dbe4807befb2403d93c90012cb248079e592403493490012c9248039a592400083090000c12480018192403083090;
   0x92596c004925b4012c92d801b6db6c00db6db4036db6d801b6db6c00db6db4036db6d801b6db6c005b6db4036db6d80092596c004925b4012c92d80192596c;
   0x4924b0002492d80092496c03db6db0006db6d807b6db6c02db6db0006db6d805b6db6c024924b0002492d80592496c004924b0002492d80092496c024924b0;
   0x10090000080480082412401dbec90006ff64807b7db2400c92490002592480792c92400492490002492480392492400010090000080480002412400010090;
   0x92496c004925b4012492d800b6db6c005b6db4036db6d800b6db6c005b6db4036db6d800b6db6c005b6db4036db6d80092496c004925b4012492d80092496c;
   0x4924b0002492d80092496c005b6cb0006db6d807b6db6c005b6cb0002db6d805b6db6c004924b0002492d80592496c004924b0002492d80092496c004924b0;
   0x920900004904800824164005ffc90002ff64803ffff24004b64900025b0480396cb2400092490002490480392492400092090000490480002416400092090;
   0x16c96c000b64b40125b2d80036d96c001b6cb403edb6d80016d96c001b6cb4036db6d80016d96c001b6cb4036db6d80016c96c000b64b40125b2d80016c96c;
   0x920b0000490d80092496c000b60b0000db0d801f6df6c000b60b0000db0d801b6db6c000920b0000490d801b24b6c000920b0000490d80092496c000920b0;
   0x900000004800900964000360900005804801feff24000120900004804801fe5f24000120900004804801f25f2400000090000000480000016400000090;
   0x92496c004924b4016c96d80096c96c004b64b4016db6d80092c96c004b64b4016db6d80092c96c004b64b4016db6d80092496c004924b4012492d80092496c;
   0x2d92db0016c96d801b25b6c02db6db0016db6d801b6db6c02db6db0016db6d801b6db6c02d92db0016c96d801b25b6c02d92db0016c96d801b25b6c02d92db0;
   0x24824900124124805b01b24024b64900127f2480496c924024924900124924804925924024924900124924804925924024824900124124805b01b2402482490;
   0x5b65b6c06d92db00b6cb6d805b6db6c06db6db00b6db6d805b6db6c06db6db00b6db6d805b6db6c06db6db00b6db6d805b65b6c06d92db00b6cb6d805b65b6c;
   0x6db6db0036db6d805b6db6806db6db0036db6d805b6db6806db6db0036db6d805b6db6806db6db0036db6d805b6db6806db6db0036db6d805b6db6806db6db0;
   0x2492490012492480592c92002492490012492480592492002492490012492480592c92002492490012492480592c92002492490012492480592c92002492490;
   0x5b6db6006db6db00b6db6d005b6db6006db6db00b6db6d005b6db6006db6db00b6db6d005b6db6006db6db00b6db6d005b6db6006db6db00b6db6d005b6db60;
   0x6db6d80036db6c005b6db6006db6d80036db6c005b6db6006db6d80036db6c005b6db6006db6d80036db6c005b6db6006db6d80036db6c005b6db6006db6d80;
   0x400000012492000492490000400000012492000492490000400000012492000492490000400000012492000492490000400000012492000492490000400000].
Definition emoji_rows_61 : list N :=
  [0x2c00000000000000000000002400000000000000000000002000000000000000000000006c000000100000000800000000000000100000000800000000000;
   0x1b6c00000580000002c000001b6c00000000000000400000092000000580000006c000001fec00000082000080010000410000000082000080010000410000;
   0x7fff00002ff000001ff800007ffe00000000000000000000000000003ff000001ff800007fff00000082000080010000410000000082000080010000410000;
   0xb6db00005b6c00002db60000b6db00004924000024920000924900005b6c00002db60000b6db00004104000060860000b00b00004104000060860000b00b00;
   0xdb6d80016db60000b6db0000db6d80002492000012480000492480017ffe0000ffff0000ffff80002082000010080000410400002082000010080000410400;
   0x3ffffc001ffff0000ffff0001ffef8000000000000000000000000001ffff8000ffff0003ffffc0000000000010080000000000000000000010080000000000;
   0x1b6db6002db6d80016db60001b6db6002492480012492000092490002db6d80016db68001b6db60020000800100004000000000020000800100004000000000;
   0x2db6d80036db6c001b6db0002db6d8001249200009249000249248003fff7c001fffb0003ffefc0010002400180034002400490092002400000000002400080;
   0x3ff2fc003ef97c000ffeb0003ff27c000000000000000000000000003ff87c001ffeb0003ff07c0000000000d80032012400490092002400000000000000000;
   0x5b6db6002db6d80016db68005b6db6002492480012492000492492002db2580016d928005b64b60124004925b6006d82da00364124004924920024804800120;
   0x2db6d80032492c00192490002d92580012492400092490002492480032492c00192490003d924c0492002406da0036412400492492002482400002402400492;
   0x3c925c0032492c000924900034924c0000000000010080000000000030000c000800100030000c0000000006d80036412400492492002400000000000000000;
   0x5b6db6002db6d80016db6c005b6db6002492480012cb2000492592002c92580012cb20005925960124004925b6406db6da24364924024924920024924800124;
   0x2db6d80032cb2c0009e590002593c80012cb200009e590002493480032c92c0009a5900034934c0492402406da6436412402492492402482402400402402092;
   0x3d93dc0012c928000924900034934c0000c10000010080000083000010c108000000000030830c0000000006d86436412482492492402400000000000000000;
   0x5b6db6002db6d80006db60005b6db60004924800024920004924920024924800024920005924960924824925b6c36db6db65b6c924824924924124924824124;
   0x2db6d80012492000092c90002c925800024920000124800024924800124920000124800034924c0492412486db65b6cb6c825b6492412482480012412482492;
   0x3c925c00024920000124800034924c00000800000024000000100000000800000000000030100c0010002006ff41bec12482492492412480080010000000000;
   0x5b6db60005b6c00002db60005b6db60004924000024920004924920004924000024920005924960924824925b6c36db6db01b6cb6d82db64924124924900924;
   0x2db6d80002592000012c80002c92580002490000012480002492480002490000012480003c925c0492012486db01b6c36d82db6492412482490092412480492;
   0x3cbe780000490000012480003cbe78000048000000240000003e000000480000002400003c3e7c0000000406fb01b6c12480492492012480400002000000000;
   0x1b6db40000b60000005b00001b6db40000920000004900000924900000920000004900001b24b40124804925b6c16da6db01b6c36d80db64920124824900924;
   0xdb6d80000480000002400000d92d80000480000002400000492480000080000002400000f92f80092002482db00b6c36d80db6092012482490092412400490;
   0xf93f80000080000002400000f93f80000000000000000000482400000000000000000000f83f80000000002db00b6c12400490092002480000000000000000;
   0x5b6db6002db6d80036db6c005b6db6002d92d80036cb6c005b65b6002d92d80036c96c005b25b60124004901b6006d80d80036816c005b00920024804800120;
   0x2db6d80036c96c005b25b6002d92d80036c96c005b25b6002d92d80036c96c005b25b6002d92d80090002480d80036816c001b0090002480480012012400090;
   0x2492480012492400492492002492480012412400492492002482480012412400492492002482480000000000f8003f812400090090002480480012000000000;
   0x5b6db6006db6db00b6db6c005b6db6006db6db00b6db6c005b6db6006db6db00b6db6c005b6db60124000901b4002d80d80036816c001b00900024804800120;
   0x6db6da0036db6c005b6db6006db6da0036db6c005b6db6006db6da0036db6c005b6db6006db6da0090002480d80036816c001b0090002480480012012400090;
   0x2c92580012492400492492002c92580012492400492492002c92580012492400492492002c92580000000000d80016812400090090002480000000000000000;
   0x5b6db6006db6db00b6db6c005b6db6006db6db00b6db6c005b6db6006db6db00b6db6c005b6db60124000901b4002d80d80036816c001b00900024804800120;
   0x2492480012492400492492002492480012492400492492002492480012492400492492002492480000000000480012012400090090000480000000000000000;
   0x480000000000000000000000000000000000000000000000480000000000000000000000000000000000000000000000480000000000000000000;
   0x6c800001b6c00000480000002400000092400000d80000006c800001b6c00000480000002400000092400000d80000006c800001fec00000580000006c800;
   0x1b6c00006db600001240000009200000249200003ff800001ffc00007ffe00001240000009200000249200003ff800001ffc00007ffe000016d800001b6c00;
   0x5ffc00007fff80000000000000000000000000007ffc00007ffc00007fff8000124800000924000024920000fffe00007ffc0000ffff80003ffc00007ffc00;
   0xb6db0000db6d80002492000012490000492480016db60000b6db0000db6d80012492000092490000492480017ffe0000ffff0000ffff80016db60000b6db00;
   0xdb6d00016db6c000924900004924000124924001ffff0000ffff0001ffffc000924900004924000124924001ffff0000ffff0001ffffc001b6db0000db6d00;
   0xffff8001ffdfc000000000000000000000000001ffff8000ffff8003ffdfc000924900004924000124924001ffff8000ffff8003ffffc001ffff8000ffff80;
   0x1b6db0002db6d80012492400092490002492480036db6c001b6db0002db6d8001249240009249000249248003ffffc001ffff0003ffefc0036db6c001b6db00;
   0xdb6580036d96c000924900004924800124924001ffcbc000ff678003ff97c000924900004924800124924003ffdfc000ffff8003ffb7c001b6db4000db6d80;
   0xc9258003fc92c000000000000000000000000003da03c000c9218003fc03c000920100004900000124024003ffdfc001ffff8003ffb7c003fe4bc000fb6580;
   0x1b6db0002db6d80012492400092490002492480032492c00192490002d9258001249240009249000249248003edb7c001b6db0003db6dc0036db6c001b6db00;
   0xc92580032c92c0009249000049248001249240019249c000c92580032492c000924900004924800124924003b6dbc001db6d80036db6c001b6db4000db6d80;
   0x493480032c92c00018180000083000000c10000398198000083000030c10c000900900000830000104104003befb8001df7d8003fdbfc00192598000d93c80;
   0xb6db0002db6d80012cb2000096590002592c80032cb2c00096590002592c80012cb2400096590002592c80036db6c001bedb0003db7dc0036db6c001b6db00;
   0x492400032c92c00092490000492400012492400192490000492400032492c00092590000492400012c924001befb8000db6d80036db6c001bedb0000db6d80;
   0x492400032492c00000000000000000000000000180010000000000030000c000800100000000000104104001befb80005b6c0003fdbfc00192590000492400;
   0xb6db0002db6d80012592000092c90002492480012592800092c90002c92580012492000092c90002492480016db68000b6db0003db6dc0016db68000b6db00;
   0x492400032492c00092490000492400012492400092490000492400032492c000924900004924000124924000b6db00005b6c0003edb7c000b6db00005b6c00;
   0x492400032492c00000000000000000000000000080000000000000038003c000000000000000000100804000f7da00005b6c0003eff7c00092480000492400;
   0x36d80002db6d80002592000012c80002492480002492000012480002c92580002592000012c80002492480006db6000036d80003db6dc0002db6000036d800;
   0x92400036596c00012c80000092000012592400012c8000009200003e593c00012c800000b6000012592400017d800001bec0003edb7c00016d800001b6c00;
   0x9200001e497c0000000000001000000008000000000000000000001e087c00002400000012000012482000017f800000fe00001ffffc00002480000092000;
   0x2c00002db6d80000480000002400000492480000480000002400002d92d800004800000024000004924800005b0000006c00002fb7f800005b0000006c000;
   0x12000016cb6000002400000012000012492000002400000012000016c96800002400000012000012492000002c0000003600001fdbf800002c00000036000;
   0x2492480016c96400090090002482480012412400090090002482480016c16400090090002482480012412400096c900024b6480016ff6400092490002492480;
   0x5b6db6006db6da0036cb6c005b65b6006d92da0036c96c005b65b6006d92da0036cb6c005b65b6006d92da0036db6c005b6db6006db6da0036db6c005b6db60;
   0x6d92da0036cb6c005b65b6006d92da0036cb6c005b25b6006d92da0036cb6c005b25b6006d92da0036cb6c005b6db6006db6da0036db6c005b6db6006db6da0;
   0x24924800164b2c004924920024924800164b2c004924920024924800164b2c004924920024924800164b2c00492492002492480016592c00492492002492480;
   0x5b6db6006db6db00b6db6c005b6db6006db6db00b6db6c005b6db6006db6db00b6db6c005b6db6006db6db00b6db6c005b6db6006db6db00b6db6c005b6db60;
   0x6db6da0036db6c005b6db6006db6da0036db6c005b6db6006db6da0036db6c005b6db6006db6da0036db6c005b6db6006db6da0036db6c005b6db6006db6da0;
   0x2c92580016492c00492492002c92580016492c00492492002c92580016492c00492492002c92580016492c00492492002c92580016492c00492492002c92580;
   0x4924920024924800124924004924920024924800124924004924920024924800124924004924920024924800124924004924920024924800124924004924920].
Definition emoji_rows_62 : list N :=
  [0x400000002400000002000000000000000000000000000000000000002000000000000000000000002c00000000000000000000002400000000000;
   0x20000007f00000064000000120000004000000024000000000000000800000124000000ba0000007f000001ff8000009000000059000001fc80000090000;
   0x24000000b6000000db0000006c0000009200000049000001248000009240000249200003ff800001ffc00007ffe000036d800001b6c00006db6000036d800;
   0x92000000db0000006c000000920000004900000024000004924000024920000924900007ffc00003ffe0000ffff80005b6c00002db60000b6db00005b6c00;
   0x10000000ff0000002400000092000000080000000000000492400002492000092490000ffff00007ffe0001ffffc000ffff00007ffe0000ffff8000fffe00;
   0x24000000b6000000db0000016c800000920000004900000924900004924000124924001ffff0000ffff8001ffffc001b6db0000db6d80016db6c001b6db00;
   0x92000000db0000006d00000092000000490000002400000492480002492000092490003ffff8001ffff0001ffffe002db6d80016db60001b6db6002db6d80;
   0x10000000ff0000002400000092000000080000000000000492480002492000092490003ffff8001ffff8003ffffe003ffef8001ffff0003ffcfe003ffef80;
   0x124800000b6000000db0000016d800000920000004900000924900004924800124924005ffdfc000ffef8003ffb7c005b6db4000db6d80036db6c005b6db40;
   0x92000000db0000016d80000092000000490000002400002492480012492000092490003ff6f8001fdb78007fedbe002db6d80016db68005b6db6002db2580;
   0x10000000ff0000012480000092000000080000000000002400080010000000090010003fb6fc001efb78007fedbe003d9258001e4938007f249e003c92580;
   0x124800001b6800000db0000016d80000092000000490000092590000492480012c924005b6dbc002db6d80036db6c005b6db4002db6d80036db6c005b6db40;
   0x92000002db0000016d80000092000000490000012480002493480012c9200009a590003df7d80016db6c007befbe002db7d80016db68005b6db6002d93d80;
   0x10000002ff0000012480000092000000080000000000000083080000c10000098190003df7d80017dbe8007befbe003d93d80012cb200079e59e003493480;
   0x124800001b6c00002db4000016d80000092400002490000092590000492480012c924001b6db0000db6d80036db6c001b6db0000db6d80036db6c001b6db00;
   0x92400002db4000036d80000092400002490000012480000492480002492000092490003db6d80006db60007b6dbe002db6d80006db60005b6db6002492480;
   0x10000002ff4000012480000092400000080000000000000010000000080000082410001dbed80006ff60007b7dbe000c92580002592000792c9e000492480;
   0x124800005b6c00002db6000016d800004924000024900000924900004924000124924000b6db00005b6c00036db6c000b6db00005b6c00036db6c000b6db00;
   0x492400006db6000036d800004924000024920000124800004924000024920000924900005b6c00006db60007b6dbe0005b6c00002db60005b6db6000492400;
   0x10000006ff60000924900004924000000800000000000000100000000800000800100005bec00002ff60003f7dfc000492400002490000392cbc000092400;
   0x2c92496416db6db00b6db6d82cb6db64164924b0092492580012c80000092400012592400036d800001b6c0003edb7c00016d800001b6c00036db6c00016d800;
   0x124924900b6db6d82db6db64164924b0092492582c924924000920000004900000924900000b6000000db00001f6dfc0000b6000000db00001b6db0000092000;
   0x100000124b6db6c824924924124924924800800820000004000000000000000000900900000360000005800001feff80000120000004800001fe5f8000012000;
   0x6c92492cb6db6db65b6db6db6db65b6cb24924965924925b0092490000492480016c96000096c900004b6480016db6800092c900004b6480016db6800092c900;
   0x924824924b6cb6c925b65b6492482492492412492492492402d92d80016c96c001b25b0002db6d80016db6c001b6db0002db6d80016db6c001b6db0002d92d80;
   0x920000124b6c36c824900924124824924800004824000024024824800124124005b01b20024b64800127f2400496c92002492480012492400492592002492480;
   0x6c90096cb6d82db65b6416db6db00b6cb64804b65b20125b05b65b6006d92db00b6cb6c005b6db6006db6db00b6db6c005b6db6006db6db00b6db6c005b6db60;
   0x92400492496006c925b00b2492400492492002492490092406db6da0036db6c005b6db6006db6da0036db6c005b6db6006db6da0036db6c005b6db6006db6da0;
   0x92400492496006482490092412400492492002482490092402492480012492400592cb20024924800124924005924b2002492480012492400592cb2002492480;
   0x6db00b6cb6c005b65b6006db6db00b6cb6c005b65b6006db05b6db6006db6db00b6db6c005b6db6006db6db00b6db6c005b6db6006db6db00b6db6c005b6db60;
   0x92400492492002492490092492400492492002492490092406db6da0036db6c005b6db6006db6da0036db6c005b6db6006db6da0036db6c005b6db6006db6da0;
   0x400000012492400492492000400000012492400492492000400000012492400492492000400000;
   0x4800000000000004900000000000124924900000800000000000000000000005900000124800000000000000000000000000000000000000000020000000;
   0x6c0000000000001248000000000009259248000080000000000000000000003ff80000492400000000000000000000000000000000000000000092000000;
   0x1fc00000000000007c00000000000000180000002c000000030000000000000ffff0000400000000000000000000000000000000000000012092012000000;
   0xd80006c00000092db24000000000000b2000002492000000580000000000016db6c00192490000000000000000000000000000000db0002492486d900000;
   0x16c00016000000496c92000000000000c100000924900000124800000000007ffffe002492480000000000000000000000000492006c02000080012c80000;
   0x1fc00002c0000000000000000000000041000003ff800000124800004800007b6dbe0020824800000000000000000000000007ff007e00000080013e80000;
   0xd800000b00000b6db6c000000000000b6000012db6002406db60924b6c000b2492d804b65960924900000000000000000000b6d80db0082492002fb60000;
   0x20000001800005b6db60000000000124920000bef900b60bef804925b6000fb65978024924804924800024000000000000005b6006c02492490016c90000;
   0x49200000249000049249200000000001249240001248009603ff804924be003eb65f7c02082080002480002490000000000000796006c02492490016492000;
   0x1b64000001b6c005924925b2492492012492490012db6006c16db60b6db2c005b6db6d804924960925b60004b6db0000000000036d00580192596c02db6db00;
   0x3db2000092492482c924924124924900924924800924900b60924805b6c96007eb24b7c02492480492490002492d80000000000596002c02492cb6016492f80;
   0x2df2000000000002492492412492492000000000012480012012480492f86007eb24b7e020000800024900024927c0000000000692082c020924920024927c0;
   0xb6c000924924924924925b6db6db6db6db6db6012db6000016db60b6db25805b6db6db04924960924924004924b6802492492436db6db0412db6d805b6db60;
   0xc92000492492492c924924b6db6dbe5b6db6db00b6d900100b6d805b6d96007fb24b7e024924804924920024924b0012492492596db6d80016cb6c024f25f0;
   0x4920000820820824924924f24924be5ffffff90092480010092480492582007ff24bfe020000800000000020124be0000000007f7ff7f800124924024fa5fc;
   0xb64000b6db65964b2492596db6db6cb6db6db60125b60000165920b6db2580db6db6db05924960924924905b2492d02492492436db6db4002d96d801b6db6c;
   0xc92000492492490db6db60b24924be5b2cb6590096c90010096ca05b6d92c07fb6db7e02c92580492492586d924960124924925b6db6d80016cb6c004be580;
   0x4960000820820804924920324924be4d3c9a780092490010092480492583c07ffffffe02412480000000082490492012482092797ff7fc001249240049fc00;
   0xb6400092492496092492406db6db6cb6db6db6006db6002c96db60b6db65805b6db6db01b64b00924924b65b6c92482d965b2c36db6db4002492d800b6db00;
   0x4920004924925b04924920b6db6dbe5b2cb6590036d80092436d805b6d92c07f96c97e004924804924925a6db64924124924925b6db6d80012492400497d80;
   0x49200049249249049249209249249e4f3dba7800324800124324807fff80e07f97f9fe004924004920000824924124100820807ffff7f80002492000497f80;
   0x924000b6db6db6092492406db6db6db6db6db6006db6006da6db40b6db24b05b6db6da00b6db00b6c924b65b6db2492492492436db6db0000492480036db20;
   0x20004b2492d80c16c820b25b6c965b6db6db00b6d90092cb6d80492492c03f924bfc00c925005b64925b6db6d924124924925b6db6d80002492000792f90;
   0x20004b2492c80c16c820924924927fffffff00b2490012c92480000000403fd24bfc004924004920000824924924124924925b65b6e000004900007f2f90;
   0x4000b7db6df6092db2586fb6dbecb6db6db6016db6c06d96db60924924901b6db6d801b6db00b6d924b45b6db6da6db6db6c36db6db0000092000036cb24;
   0x20005fe497fb049249209fcb65b27fffffff00b6db00960b6db0492492480ff7fbf002db6d805b6c92486db6db6cb6db6db67b6d92d80000c100001f0490;
   0x200059e49358049249201ac927984924924800924900160924904924924807dffbe002c925805b6c92406db6db60924924927b24f6f800004100000f0490;
   0x400016c925b81b6db6d82d924b6c924924920b6db6c06c36db6cb6db6db0036db6c005b6db60b6db6db05b6db6c06db6db6c36db6db6002db6d800060924;
   0x16c001bc003d80db6db601ec001b00b0000d005b6db60b45b6db04924924801bffb0002db6d905b6db6c07fffdb603ef82cb41b2d3edb0012492400030092;
   0x16c000f8001f007c003e00f8001f00f0000e005924960f05924b04924924800bffd00024924905b6db6d87ffff9203c783c381f3c3ee00012492000030090;
   0x6db00060000b00b4002c005800160b6db6db61b6db6d868b6db6cb6db6db6002db6002db6db6cb6db6db6db6db6db6db6db6cb6db6db60000000000020024;
   0x12480000000000480012000000000492492480492492090492492492492480002400012492490492492482492492412492492492492480000000000000000].
Definition emoji_rows_63 : list N :=
  [0x0;
   0x5b6c000024000004900000000000000000000000000000000000000000000000000000000000000000000000000000000000000000000000000000000000000;
   0x924924920120000024000000000000000000000000000000000000000000000000000000000000000000000000925b0000000000000000000000000000000000;
   0xb2492db60000000000000000000000000000000000000000000000000000000000000000000100000000000000907f0000000000000000000000000000000000;
   0x6db6db6d124800005b6db00004900000000000000000000000000000005b6c00000000000092c90000000000016cb60000000000000000000000100000000000;
   0xb6496db6092400002492480002480000000000000000000000000000016db60000000000004924800000000000924900000000000000000000004a0000000000;
   0x92492492000000002412480016d800000000000000000000000000000124924000000000004924800000000000924900000000000000000000004c0000000000;
   0x24b24924124900105b6db6000db60000124900000924800000000000024924800000000004b6db2000000000016db64000000000124920000924960024924900;
   0x8000049248048249249001e4b0000492480002492400000000000012492400000000002492480000000000492492000000000492490002492490012492480;
   0x80000000000000000000018030000492480000000000000000000000000400000000002492480000000000092490000000000000000400080090012492480;
   0xb6000092492492492492480c920800b6db60004924900005b6d800064924b00000000005b6db60000000000b6db6c000020000120125b0492496c024924920;
   0x2db0000492492486db6db60124b0400492482402492492006592800092492400000000002492490000000000492492000010000492496d82592492012492490;
   0x2db0000492492402492492010010c0049248240000009200008240008000000001200000249248000000000049249200001000009249ed807f0092012412490;
   0x6db6db6cb6db6db2492db6d82db20800b6db64b0492492d80c924800b65b6cb6016d800025b24b64024920005b6492cb0092400036db6db64b6496c86db2db64;
   0xb6db64924924924824924b6016db2400492482482492492412592c005b6db6db01965000124924920124900064924924024920005b6db6ca2592492092492490;
   0xbfdfe5b2012000000000012017c924004924824800000924924924001b6492d804865800124924900124900004800120004120007ffffaca0080092012412490;
   0x6db6db6c92492492492492400db6db60b6db64b2492492d86db6db2036db6db4092c96002492492402cb6400096492c805b2d800b6db6db6492492486db2db6c;
   0xb6db65b649249248249248001ffb24904924824824924924f6db6db01b6db6d82c964b00124924900924900024924924024924005b6db6db2492492492492492;
   0xbfdfe7f209249048249248003e5f24904924824800000924f2492490092496483c96030012492490092490002cb24b6c024124007fffffff2492492400000000;
   0x6db6db6cb2492cb2492492496c96c92cb6db6492492492496db6db6c325b6c945b6db6d824924924124924901b6db6d804924920b6db6db65b6db6db24924924;
   0xb6db65b64924924824924b6cf24f24944924824824924924f24924b6192db6486db6db6c1249249049249248249ff92c12492490400000036db6db6cb6db6db6;
   0xbfdfe7f20104000024924924f04f24944924824824924924f2492492092492487ffffffc1049240049249248301ff80c000000004000000324924924b6db6db6;
   0x6db6db6c924924925b6db6db6596db6cb6db6db65b6db6db2db6db6c32db6d94db6db6da24b6d92cb6db6db0196db6586db6db6cb6db6db6492492496db6db6c;
   0xb6db65b24b2492486db6db6cf24b65964b2592596db6db6c16db6db6196db6c86db6db6c105b6c00492492483db6db7cf6dfedbe5b6db6db2492492412492492;
   0x92492492492492482592c964f04f25f65f2f92f87ffffffe17e927f2092492487ffffffc104924104be497c83fb6db7cf7ffefbe7fffffff05c003e003c00780;
   0x6db6d924b6db6db2030182c06496db6cb6db6db65b6db6db2db6db6c36db6db45b6db6db2492492496d92d921b6db6d86db6db6cb6db6db64b6496c825b24b64;
   0x124924925b6db6d80582c160325f24b019bc93c82cb6dd6c167b6cb21b6db6d86cb6d96c124924904f249ec83fb6db7c367becfe5b6db6d824b24f6416792cb0;
   0x1249249249249248008241003e5c06b01998818804300c2006700c30192db6582c36d86c320000940c2018403ffffffc367ffcfe0d60035804b00d60066004a0;
   0x6db6db6c924b6d92030180c02db40360329941940b6006c005b00b6036db6db40b6496c82d80016c06500d801b6db6d804b2496406c001b00b6006c005b00b60;
   0x92492490492796480182c14017f801f01b0d80d807e003e003c007c01f0000f807e00f803e0000fc036007c02d00006c03c00d800bc002f807e003e003c007c0;
   0x92492490492596480082410002400080080400400080010000400080090000480080010012000090010002000400002000400480010000400080010000400080;
   0x24924920924924920100804000000000000000000000000000000000000000000000000000000000000000000000000000000000000000000000000000000000;
   0x80000000000000000000;
   0x180000000000000000010;
   0x10000000492d80002c96c;
   0x800000024b6000012d90;
   0x12490000092400;
   0x2c00000010000000180000002c00000010000000180000002c00000010000000080000002000000010000000180000002c00000492400002d96000036c800;
   0x3c000000580000002c00000034000000580000002c00000034000000080000002000000010000000780000003c0000003c0000024920000b2000000590000;
   0x3e000000180000002c0000001e000000180000002c0000001e000000000000000000000000000000180000002c0000001e000002492000590000002c90000;
   0x2c00000030000000180000002c00000010000000180000002c00000010000000080000002400000010000000080000002c000024924805b2180002d908000;
   0x12000000080000000400000010000000080000000400000010000000080000000400000010000000080000000400000010000012492402400800030010000;
   0x16000000080000000400000016000000080000000400000016000000080000000400000016000000080000000400000016000016db6000000800000010000;
   0x2d800000360000005b0000002d800000360000005b0000002d800000360000005b0000002d800000360000005b0000002d80002db6d800005b0000016d800;
   0x860000024b00000164800000860000024b00000124800000860000024b00000124800000860000024b0000002480000006000012492400096d900000b6400;
   0x1820000000100000104800000820000000100000104800000820000000100000104800000820000000100000104800000820000000000001ffff0000000000;
   0x10580000086c00000cb0000010580000086c00000cb0000010580000086c00000cb0000010580000086c00000cb0000010580000492480036db6c024924924;
   0x12496c924924b2482496d92412496c924924b2482496d92412496c924924b2482496d92412496c924924b2482496d92412496c9200249200009e590012492490;
   0x124b24900924924824924924124b24900924924824924924124b24900924924824924924124b24900924924824924924124b249000249200009a590012492490;
   0x2db6db6016db6db01b6db6d82db6db6016db6db01b6db6d82db6db6016db6db01b6db6d82db6db6016db6db01b6db6d82db6db6006db6d80012c96402cb65b6c;
   0x16db6db01b6db6c02db6db6016db6db01b6db6c02db6db6016db6db01b6db6c02db6db6016db6db01b6db6c02db6db6016db6db0036db6c0009e590012492490;
   0x124964800924b2400492c920124964800924b2400492c920124964800924b2400492c920124964800924b2400492c9201249648003ffffc0009a590012492490;
   0x2db6db6c16db6db65b6db6d92db6db6c16db6db65b6db6d92db6db6c16db6db65b6db6d92db6db6c16db6db65b6db6d92db6db6c02db6d80012c96402592cb24;
   0x92492c924924b64924925b2492492c924924b64924925b2492492c924924b64924925b2492492c924924b64924925b2492492c92036d9240009e590012c92590;
   0x12493c9249249e4824925f2412493c9249249e4824925f2412493c9249249e4824925f2412493c9249249e4824925f2412493c92016c9240009a590012c92590;
   0x6db6db6cb6db6db65b6db6db6db6db6cb6db6db65b6db6db6db6db6cb6db6db65b6db6db6db6db6cb6db6db65b6db6db6db6db6c02db6d80036db6c02db6db6c;
   0x92492d92492496c924925b2492492d92492496c924925b2492492d92492496c924925b2492492d92492496c924925b2492492d92016d920005b6db6036db6db4;
   0x124927924924974824924b24124927924924974824924b24124927924924974824924b24124927924924974824924b2412492792016c920003ffffc016db6db0;
   0x6db6db6cb6db6db65b6db6db6db6db6cb6db6db65b6db6db6db6db6cb6db6db65b6db6db6db6db6cb6db6db65b6db6db6db6db6c92db6d92036db6c02db6db6c;
   0x924924924924924924924924924924924924924924924924924924924924924924924924924924924924924924924924924924924924924905b6db6016db6db0;
   0x124924924924924824924924124924924924924824924924124924924924924824924924124924924924924824924924124924924924924803ffffc016db6db0;
   0x6db6db6cb6db6db65b6db6db6db6db6cb6db6db65b6db6db6db6db6cb6db6db65b6db6db6db6db6cb6db6db65b6db6db6db6db6cb6db6db6036db6c00db6db60;
   0x924924924924924924924924924924924924924924924924924924924924924924924924924924924924924924924924924924924924924901b6db0002db6d80;
   0x92490000492480].
Definition emoji_rows_64 : list N :=
  [0x2492492400092000090000000002400000492480000002000492492000000000002db00000000000000000000000000000000000000000000000000000000000;
   0x36db6db6002db20004800000005b6c00016db6c000000b0006db6da000000000003ffe0000000000000000000000000000000000000000000000000000000000;
   0x12492492007ffe0000000000007ffc00016db64000005b0007ff7ff00000000000ffff0000000000000000000000000000000000000000000000000000000000;
   0x6db6db6c02dffd804020000001b6db0002db6d800001b6000db6db6032d96c96006db60000000000000000000000000000000000000000000000000000000000;
   0xb6cb6db603ffffc00000000002db6d80016db6c00002db0006db6db0797cbe4e00fedf0000000000000000000000000000000000000000000000000000000000;
   0x924124920f2fffe00000000007c807f0016496400017ff0007df7df0793c9e4f00ffff0000000000000000000000000000000000000000000002000000010000;
   0x6d92db6c164bffb0412000000d80036002db6d80006db6000db6db60b65b2d96006db6000000000000000000000480000002400000010000000780000003c000;
   0xb6c16db61f67fef800800000160005b0016db6c001b6db0006cb65b05f2f97c900f6df0000000000000000000002000000010000000080000003c0000003c000;
   0x924124921cb7fff8000000001e0007f80164964007ffff0007c967f05f2793c800ffff0016db6db0000000000000000000000000000080000003800000018000;
   0x6d96db6c3ecbfdf6400000002c001b6c02db6d801b6db6000db6db6096cb65b2006db6006db6db6c00000000000080000000c00000016000000180000002c000;
   0xb6016db65f6ff7f80000000036002db6016db6c00db6db0016d92db04be5f2f800ffff00fffffffe000000000002c000000120000001b0000002c00000012000;
   0x920024927f3ffffe0000000038003e1e016db64007ffff001ec925b04be4f27800ffff00fffffffe0000000000024000000120000000b0000002400000012000;
   0x6c924b6cbfdfeffe080000006c00db2c02db6d80016db6000db6db68b2d96cb6006db6006db6db6d000924920024b0000012580000096000002cb00000365800;
   0xb60105b67fefbfff00000000b0016c16016db6c000b6db0016d92db0497cbe5f00fe5f00f6f93d96012c92480010580000082000000030000010580000182000;
   0x920124927fefffff00000000f001f01e012492400017ff001ff92ff0797c9e4f00f25f00fff92c96097c92480000780000087800000038000000780000087c00;
   0x6c92db6cbfff7ffe010000006806d80d02db6d800005b6000db6db68b65b2d96006c96006db25b6db6db25b0492db6482496d924124b6c92492db6482496d924;
   0xb60164b67ffdbfff00000000b00b6016016db2c00000db0016cb65b0192c96c800f25f00f6f92c964becb7c02db64b6416db25b25b6d96d82db64b6416db25b2;
   0x920120927e3f800f00000000f00f801e0124924000005b001fcf65f00900004000f25f00fff92c964925ffc02492c920124b2490092592402492c920124b2490;
   0x6c92d92cbe5b2496092002486c36c02c02db6d80000016002db6db6c060000b0006cb6006db65b6d36db6d801b6db6c02db6db6016db6db01b6db6c02db6db60;
   0xb6090d967e2c000f0d924924305b0016016db6c000000b0016db6db00900004000feff00feff7fbe1b6fb2002db6db6016db6d901b6db6c02db6db6016db6db0;
   0x920904927e3c000e0d800124387c001e016db64000000b001fff7ff80900004000ffff00fffffffe1f6590000492592412492c920924b2480492592412492c92;
   0x6d92cb2c3edb6db61b6492db6db6002c02db6d80000006002db6db6c060000b0006db6006db6db6cb6db6c925b6db6db6db6db6cb6db6db65b6db6db6db6db6c;
   0xb6190d965f7ffff80d92492436d80036016db6c000000b0016db6db00900004000fedf003ffffffe4924924924925b2492492d924924b64924925b2492492d92;
   0x920904921ffffff80d8001241fe000f80124924000000b001ffffff80900004000fa5f0016db6db04924924824925f2412492f9249249e4824925f2412492f92;
   0x6d92cb2c16fffff01b6492db2db0016c02db6d80000006002db6db6c060000b0006db60000000000b6db6db65b6db6db6db6db6cb6db6db65b6db6db6db6db6c;
   0xb6190d960bffffd80d92492416c005b0016db6c000000b00124924920900004000f25f00000000004924924924924b2492492d92492496c924924b2492492d92;
   0x920904120fffffe00000000007c807f0016db64000000b00124924920900004000f25f00000000004924924824924b24124924924924924824924b2412492492;
   0x6d92c92c06ffffa00000000005b6db6002db6d80000006006db6db6c060000b0006db60000000000b6db6db65b6db6db6db6db6cb6db6db65b6db6db6db6db6c;
   0xb6db6db6017ffec00000000002db6d80016db6c000000b00924924920900004000fedf0000000000492492492492492492492492492492492492492492492492;
   0x12492492007ffe0000000000007ffc00012db64000000b00124924920000000000ffff0000000000492492482492492412492492492492482492492412492492;
   0x2db6db6c005b6c00000000000036d80002db6d80000006006db6db6c00000000006db60000000000b6db6db65b6db6db6db6db6cb6db6db65b6db6db6db6db6c;
   0x12492490000490000000000000092000012492000000000012492492000000000012480000000000492492482492492412492492492492482492492412492492;
   0x2400000000000000480000492492000012000;
   0x80000000400000010000000080000000400000010000000080000000400000010000000080000000400002db60000000000005b6c005b6db6da0036d800;
   0x2c00000016000000180000002c00000016000000180000002c00000016000000180000002c000000160000bffb0000000000006ff6006db2db6c005ffc00;
   0x24000000be0000001b00000024000000be0000001b000000240000001e0000001b00000024000000be0001ffff000000000001ffffc06c000b6c02ffff80;
   0x1b0000036d800000160000001b0000036d800000160000001b0000012d800000360000001b0000036d80037ffec00000000006fb6fa05b2496db05f2ff60;
   0x2c800000b6000000190000002c800000b2000000090000000480000092000000190000003c800000b20005ffffe0000000000be007c06d925b6c07f87fb0;
   0x124000005b2000002480000012400000592000002400000012000000590000002400000012000000580000fffe9e0000000000ffc1ff86df3fb6c17f07ff0;
   0x16d800001b6400000db2000016d800001b6400000db2000016d800001b6000000db2000016d800001b60001fedf2d80000000017ff7fb05b6db6db2ff27f6c;
   0x5b6000002db0000016d000005b6000002db0000016d000005b6000002db0000016d000005b6000002db0002fc27b7c000000001ffefef864925b6c1ff87df0;
   0x492000007ff0000092400000492000007ff0000092400000492000007ff0000092400000492000007ff0003fe0fffc000000001e001ff840001b6c3ff9fffc;
   0xb6580000db6000016db00000b6580000db2000016db00000b6580000db6000016db00000b6580000db60005ffdb7fa00001b003e492df6492496db6f925bfc;
   0xdb2000016c300000b6080000db2000016c300000b6080000db2000016c300000b6000000db2000016c30007ff01bfc00003f805e0017fa60000b6c3fc02ffe;
   0xd8200001fc100000b0080000d8200001fc100000b0000000d8000001fc000000b0000000d8000001fc00007ff259fc00c004007f24b3fe6492036c3f803dfe;
   0xb6180000db2c00016c100000b6080000db2c00016c100000b6080000db0400016c100000b6080000db04005b64b2db00b60800bfffe5fe5b6d96db7f92597c;
   0xdb0da001ef16c000b6096000db05a001ef02c000b6096000db04a001ef02c000b6096000db04a001ef02c07c06d82c00d804007fffb3ff6db6836cbfc17dfe;
   0xdb04e000ff82e000f6016000d904a000fc826000f6016000d900a000fc006000f6016000d900a000fc00606187e18e000804007fffe3ff6db7036cff81fffe;
   0xb6c36000db0580006d824000b6c12000db0580006c824000b6412000d90480006c824000b6412000d90480cb25b6cb0016d800bfff7ffe5b6d96db7f92ff3d;
   0x1b2480002d92000012490000192480002c92000012490000192480002492000012490000192480002492006fb64de4001b6c007ffdbeff6db6db6cbfcb3f3e;
   0x90400002482000012090000090400002402000010090000000400002402000010090000000400002002006f1e0c76125c24907fff3e7f6db8de6cffcf3fbe;
   0x5960960064b04b00b24124005960960064b04b00b24124005920960064904b00b24124005920960064904b04f2c9efb2db64b60bffb3cfe5b6db65b7fb679fc;
   0x1fdb24f01f2c12782f920b7c1fd924f01f2c12f82f920b7c1fd924f01f2c12782f920b7c1fd824f01f2c12f86fb2cff43fdb6df05fefbe7a6db0da6c3fdb31fe;
   0x3059269c393c065c3cb2472c3058269c393c065c3cb0472c3058269c393c065c3cb0472c3058269c3938065c27f3cfe430fb8f9c7fff127c6db8fe6c3ffb3ffe;
   0x60b64b0c305b2c86516c864a60b64b0c305b2c86516c864a60b24b0c30592c86516c864a60b24b0c30592c865b67f7c861b28b0c3fdf24f65b6db65b2fb67f7c;
   0xe01b0c8641349c4360b20806e0190c8641349c4360b20806e0190c8641349c4360b20806e0190c8641349c432587e32ce2990c861f7f80786db0006c1ec33cf0;
   0xc2190c024124184360120806c2190c024124184360100806c2190c024120184360100806c2190c02412018430d9ff828c3190c821fff00786db8006c1fe33cf0;
   0x64961825824b0c82c12d904364961825824b0c82c12d904364961825824b0c82c12d90436496182582490c820b7ffed865b6d86516ff24f05b6c925b0df67fe0;
   0xc01b0c02402d980360160806c01b0c02402d980360160806c01b0c02402d980360160806c01b0c02402d980305ffffe0c2590c020bffb6c06db0006c07e33fb0;
   0xc0190c0240378c026012080640190c0240378c026012080640190c0240378c026012080640190c0240378c0205ffffe040100c0203ffffc06db8006c03e73f80;
   0x6032ca0c30514c065061860a6032ca0c30514c065061860a6032ca0c30514c065061860a6032ca0c30514c06017ffec060300a0c02dffd805b6c925b01b7fb00;
   0x32c0079e596006583cf00b2c32c0079e596006583cf00b2c32c0079e596006583cf00b2c32c0079e5960065800bffb0032c0079e006ff6006db6496c005ffc00;
   0x1fc001f01fc003f80f8003f81fc001f01fc003f80f8003f81fc001f01fc003f80f8003f81fc001f01fc003f80017f8001fc001f0002ff0002db6db6c001fec00;
   0x5800160060000b00b0000c005800160060000b00b0000c005800160060000b00b0000c005800160060000b0000590000580016000092000092492480002c000].
Definition emoji_rows_65 : list N :=
  [0x0;
   0x80000000000000000000000080000000000000000000000080000000000000000000000000000000000000000000000000000000000000;
   0x580180002c02c00016036000180180002c02c00016036000180180002c02c00016036000000180000002c00000036000000180000002c000000360000001800;
   0x2402c000120160004905b0002402c000120160004905b0002402c000120160004905b0000002c000000160000005b0000002c000000160000025b0000002c00;
   0x2480d00092012000492fb00024805000920120004900b0002481d00092012000493fb00000005000000120000004b0000003d00000016000003ff0000003d00;
   0xdb01b0016d82c800b6cb6000db0090016d804800b6c92000db0190016d82c800b6db20000000900000024800000920000001b0000003d800001b60000001b00;
   0x12492400092d92000496c80012492400092d92000496c80012492400092c92000496c80000012400000592000002c80000013c000005b6000002da0000012c00;
   0x1249200009249000249fe0001249200009249000249fe0001249200009249000249fe00000092000000490000017e00000092400000492000017f00000092000;
   0x2db6d82036db60305b6db0582db6d82036db60305b6db0582db6d82036db60305b6db0580036d800005b6000002db0000036d800005b6000002db0000036d800;
   0x92db6090496db04824b6d82012db6090496db04824b6d82012db6090496db04824b6d820005b6000006db00000b6d800005b6000006db00000b6d800005b6000;
   0x12c920904964904824fff12412c920904964904824ff712412c920904964904824fff124004920000064900000fe7000004920000064900000fe700000492000;
   0x6db6db6cb6db65b65b6db2d86db6db6cb6db65b65b6db2d86db6db6cb6db65b65b6db2d800b6580000db2000016c300000b6580000db2000016c300000b65800;
   0x92db2492496c924825b6492492db2492496c924825b6492492db2492496c924825b6492400d82000016c100000b6080000d82800016c100000b6180000d82000;
   0x12db2492496c924824fe492412db2492496c924824fe412412db2492496c824824fe412400d80000006c000000fe000000d80c00006c100000fe180000d80400;
   0x6db6db6cb6db6db65b6db6db6db6c96cb6db65b65b6db2db6db6c96cb6db65b65b6db2db00b6096000db05b0016d12c000b60b6000db0db0016d96c000b60b60;
   0x92db24b249ec92d925f6496492db24b249ec925925f6496492db24b249ec925925f6496400db04a001ec824000f6016000db05a001ed86c000f68b6000db05a0;
   0x12d9249249ec924824fa492412d9241249ec924824fa482412d8241249e4904824f84824005900000064800000ba0000005b0180006d82c000bfc10000590080;
   0x6d96496cb6db24b65b6c925b6d92496cb6d924b65b6c925b6d92496cb6d924b65b6c925b0012490000192480002c92000016c900001b6580002d92000016c900;
   0x924924924924924924924924924924924924924924924924924924924924924924924924000924000024920000124900000b24000025920000164900000b2400;
   0x164920b24b04924825924064164920b24b00924825904064164820b24b00924825904064020804800124004004100920020b0480012600400416092002090480;
   0x6d96cb6cb6db24b65b2d965b6d92cb6cb6d924b65b2c965b6d92cb6cb6d924b65b2c965b2d924b6c16d925b01b2c12d82d964b6c16db25b01b2d12d82d964b6c;
   0xb6592ebe7b2c965f7db24f6cb6592ebe7b2c965f7db24f6cb6592ebe7b2c965f7db24f6c3258269e592c16583cb24b2c325b269e592c16583cbe4b2c325b269e;
   0xf2792c1679341e4e64320f2e72782c1679341e4e64300f2e72782c1679301e4e64300f2e30790c866030860e60b04c04307b0c86603c860e60be4c0430790c86;
   0x6cb65b2cb65b6db6596cb65b6cb25b2cb6596db6596cb65b6cb25b2cb6596db6596cb65b60b20804a2190c864124944360b64804a21b0c86412d944360b60804;
   0xf2592c9649249e4b64925926f2592c9649249e4b64925926f2592c9649249e4b64925926c2190c824124984360920806c21b0c824124984360960806c21b0c82;
   0xd0092c9248041a0b64025926d0092c9248041a0b64025926d0092c9248041a0b64025926c24908024124984340920802c24b08024124984340960802c2490802;
   0x6cb6db2db65b6db6d92db6db6cb6db2db65b6db6d92db6db6cb6db2db65b6db6d92db6db60961805825b0c02c12d904360961805825b0c02c12d904360961805;
   0xf25b6c96493d9e4b64b6d926f25b6c96493d9e4b64b6d926f25b6c96493d9e4b64b6d926e01b0c0640359c036036c806e01b0c0640359c036036c806e01b0c06;
   0xf2792c9679749e4e64b2cf2e72792c9679749e4e64b2cf2e72792c9679749e4e64b2cf2e30710c066020860e6030cc0430710c066020860e6030cc0430710c06;
   0x6db6db6cb6db6db65b6db6db6db6db6cb6db6db65b6db6db6db6db6cb6db6db65b6db6db2cb00b2c32c00596596006582cb00b2c32c00596596006582cb00b2c;
   0xbfc925f65fe497f92fb24bfcbfc925f65fe497f92fb24bfcbfc925f65fe497f92fb24bfc1fc005f01fe003f82f8003fc1fc005f01fe003f82f8003fc1fc005f0;
   0x2000090090000400480012002000090090000400480012002000090090000400480012002000080010000400400002002000080010000400400002002000080;
   0x800000000000000000000000000000000000000000000000000000000000000000000000000000000000;
   0x16000000080000000000000010000000180000002c00000036000010000000080000000000000010000000080000000000000010000000080000000000000;
   0x3e0000000000000000000000000000007e0000003e000000be000012012000080080002402c00010012000080080002402c00010012000080080002402c00;
   0x16c000000120000004800000124000000360000005b0000016c00002c02d000360160005b25b0002c02d000360360005b25b0002c02d000360360005b25b00;
   0x1b20000004800000024000000920000007800000064000001f20000920160004900b0002492d800920160004901b00024bfd800920160004901b0002496d80;
   0x1b20000000000000000000000000000006800000060000001b000009241200049009000248240009241e0004901b000249fe0009241e000490190002496400;
   0x12c00000012000000080000012400000032000000480000012400016db64001b6d92002db6c80016db6c001b6db6002db6db0016db6c001b6db6002db6da00;
   0x190000000000000002000000090000000000000002000000190000092db0002496c020125b6010092db2002496d820125b6010092db2002496d820125b6010;
   0xb00000004000000020000000300000004000000020000000b00004924904024924020125fe0104924904024924020125fe0104924904024924020125fe010;
   0x6c000000b0000000580000006c000000b0000000580000006c000b6db60b05b6db0586db6d86cb6db60b05b6db0586db6d86cb6db60b05b6db0586db6d86c;
   0xb00000004800000024000000b00000004800000024000000b0000496db04825b6d92492db6090496db04825b6d92492db6090496db04825b6d92492db6090;
   0x900000004800000024000000800000004800000024000000800004964924824b2412412ff20904964924824b2592412ff30904964924824b2492412ff2090;
   0x16c00000090000000c80000016c00000090000000c80000016c000b6db65b65b6d96db6db6cb6cb6db6db65b6db6da6db6db6cb6db6db65b6db6da6db6db6c;
   0xb0000000c80000012400000090000000c80000012400000090000496d924925b6492492df2492496db64925b6592492df2c92496d964925b6592492df2c92;
   0x9000000048000001240000009000000048000001240000008000049ec92e825b641e412ff21f249ed97e825b64be412ff2df249ed92e825b649e412ff25f2;
   0x16c000001b0000002c800000164000000b0000002c800000164000b6db64b65b6cb25b6db6596cb6db6db65b6db6db6db6db6cb6db6db65b6db6db6db6db6c;
   0x1b0000000d800000124000000b0000000d800000124000000b0000496c924924b2492492d92492496d92c924b6cb6492db6592496d924924b6c92492db2492;
   0xb20000004800000124000000b00000004800000124000000b00004920004824900024124800924926004824960024124f0092492400482492002412490092;
   0x16c000000b2000002d90000016c000000b2000002d90000016c000b6c924b65b6492db6d92496cb6cb24b65b6d92db6d96496cb6cb24b65b6592db6d96496c;
   0xb0000000580000006c000000b0000000580000006c000000b00004b2492592d92496496c924b24b2d92592d96c96496cb24b24b2d92592d92496496cb24b2;
   0x94000000580000002c00000094000000580000002c000000940005f2082783f904a7c1f1904fa5f2f82783f96427c1f1b04fa5f2c82783f924a7c1f1904fa;
   0x16c000000b6000000da0000016c000000b6000000da0000016c000b6592cb65b2c965b6db24b6cb65b2cb65b2d965b6db64b6cb65b2cb65b2d965b6db64b6c;
   0xb6000000da0000016c000000b6000000da0000016c000000b6000793c964f64b24f2cb2792c96793c964f64b64f2cb27b2c96793c964f64b64f2cb27b2c96;
   0x860000024b0000012c000000860000024b0000012c0000008600068301e0f64304d26f2782c16683c1e0f64364d26f27b2c16683c1e0f64324d26f2792c16;
   0x34c00000586000002cb0000034c00000586000002cb0000034c000b6596db6d92cb65b6cb25b2db65b6db6d92cb65b6cb65b2db65b6db6d92cb65b6cb65b2d;
   0x5860000060b00000b0c000005860000060b00000b0c0000058600049249e4b64925926f2492c9649249e4b64965926f24b2c9649249e4b64965926f24b2c96;
   0x4060000120a00000904000004060000120a0000090400000406000492c9e4b64925926f25f2c96492c9e4b64925926f25f2c96492c9e4b64925926f25f2c96;
   0x1a0c00002c060000160b00001a0c00002c060000160b00001a0c000b6db6db65b6db6db6db6db6cb6db6db65b6db6db6db6db6cb6db6db65b6db6db6db6db6d;
   0xc060000140a0000180c00000c060000140a0000180c00000c060007965964f64b2cf2cb27b6c967965964f64b2cf2cb27b6c967965964f64b2cf2cb27b6c96;
   0xc0600000c0e00000c0c00000c0600000c0e00000c0c00000c0600079e497dc3df24f3c3ee927be79e497dc3df24f3c3ee927be79e497dc3df24f3c3ee927be;
   0x80d80000416c000060b0000080d80000416c000060b0000080d800b6db6db65b6db6db6db6db6cb6db6db65b6db6db6db6db6cb6db6db65b6db6db6db6db6c;
   0x402000002090000000480000402000002090000000480000402000492492482492492412492492492492482492492412492492492492482492492412492492].
Definition emoji_rows_66 : list N :=
  [0x12492490092492480492492000000000000480000000000000000000000000000000000000000000000000000000000000000000000000000000000000000000;
   0x2db6db6c36db6db65b6db6da00024000005b6c00000080000002400000012000000580000002c00000036000000580000002c00000036000000180000002c000;
   0xb6db6db65b6db6db6db6db6c00012000006ff6000002400000012000000480000007e0000003e0000007e0000002c000000360000005a0000002c00000036000;
   0x92492492492592496db7db6c0003e00001ffffc00002400000012000000480000007e0000007e000001fe0000007e0000007e000000fa0000007c00000032000;
   0x6db6db6cb6db6db65b6db6db0016c80006ffffa00004800000024000000920000007b0000006c000001f60000005b0000006c000001b60000005a0000006c000;
   0xb61b6cb65b6c36db6db65b6c000f64000bffffc00002400000012000000480000007c00000036000001fa0000002c00000036000000d80000002400000032000;
   0x92092012492c12496db81b6c001d3c000ffc3ff80000000000000000000000000003c00000036000001f80000002400000032000000c80000002400000010000;
   0x6c96d92cb6d92db65b6c96db00b2590017ff7fb00004800000024000000b00000005800000024000001b00000005800000024000001b00000005800000024000;
   0xb60b60365b6c16db6db01b6c00792c801ffc3ef80002000000010000000580000002000000010000000d80000002000000010000000580000002000000010000;
   0x92092012492c12496db81b6c00fd27801ffe7ff80002000000010000000580000002000000010000000480000002000000010000000580000002000000010000;
   0x6c96d92cb6d92db65b6cb6db05be4b203ff93df6000d80000006c000000b0000000d80000006c000000b0000000d80000006c000000b0000000d80000006c000;
   0xb60b60165b6016db6db00b6c03dd25905ff017fa0006400000090000000c80000016c000000b0000000d80000006c000000b0000000d80000006400000090000;
   0x90090002492002496d80036c075d3cf07fe03ffe00020000000800000004800000138000000b0000000d80000012000000090000000480000012000000090000;
   0x6c96c924b6c925b65b2492db2cbe7964bfc965fe000c800000164000000b0000002d80000016c000001b0000002d80000016c000001b0000002d80000016c000;
   0xb00300065b0410db6d80016c1e7f7cb27fecb2ff0016000000090000000c80000016c000001b0000002d80000016c00000190000002d80000016000000090000;
   0x800100024b0010496e10086c1afffc9a7fcdfcff0012000000090000000c00000012c00000190000003580000012000000090000000c80000012000000090000;
   0x64924924b6d92db65b6c96db3cbedf2cbfdb7ffe002d800000164000001b2000002d80000036c000001b6000002d80000016c000001b6000002d80000016c000;
   0x820900025b6006db6db00b6c1e5f3fb27ffd9fff0016c00000092000002d80000036c00000196000002db0000016c00000196000002da0000016c00000092000;
   0x90092012492002496db00b6c1e5f3cf07ffc07ff0002400000090000000480000002400000092000002490000002400000092000002490000002400000092000;
   0x6c96c92cb6c925b65b6c96db27b67964bff967fe000d90000006c000000b4000000d90000006c000000b6000000d90000006c000000b6000000d90000006c000;
   0xb00360165b6002db6db00b6c03ff6d905fede7fa0006c000000b6000000d80000006c000000b6000000d80000006c000000b6000000d80000006c000000b6000;
   0x90012012490002496db00b6c03fb6f807fe3e7fc0002c00000096000000580000002c00000096000000580000002c00000096000000580000002c00000096000;
   0x6492cb2cb6d92db65b6d96db04f24b203fcbe7f6002db0000016c000001b6000002db0000016c000001b6000002db0000016c000001b6000002db0000016c000;
   0xb04b60165b6196db6db08b6c00792c801f67e7f80016c00000196000002cb0000016c00000196000002cb0000016c00000196000002cb0000016c00000196000;
   0x90492012492092496db00b6c00793c001f8fe7f80010c000004860000024b00000104000004860000024b00000104000004860000024b0000010c00000486000;
   0x6c96cb2cb6d92db65b6d96db009e590016cfe7f00068b00000b0c000005860000068b00000b0c000005860000068b00000b0c000005860000068b00000b0c000;
   0xb04b60165b6196db6db08b6c000f64000beff7c000b0c00000c060000160b00000b0c00000c060000160b00000b0c00000c060000160b00000b0c00000c06000;
   0x90492012492092496db00b6c000fe00003ffffc00180400003c060000120a0000180400003c060000120a0000180400003c060000120a0000180400003c06000;
   0x6c96db2cb6d92db65b6d96db0013c80002dffd800160b0000180c00002c060000160b0000180c00002c060000160b0000180c00002c060000160b0000180c000;
   0xb6db6db65b6db6db6db6db6c00012000006ff6000080c00000c060000040b0000080c00000c060000040b0000080c00000c060000040b0000080c00000c06000;
   0x12492492492492482db6db6c00010000002ff0000040f8000040f8000060f0000040f8000040f8000060f0000040f8000040f8000060f0000040f8000040f800;
   0x24924924124924900924924800000000000920000020b0000000580000406c000020b0000000580000406c000020b0000000580000406c000020b00000005800;
   0x2000000092492482492492412492490092492480000000000000000000000000000000000000000000000000000000000000000092492480000000012492490;
   0x120000005b6db6d82db6db6c36db6db65b6db6d800000000000000000000000000000000000000000000000000000000000024005b6db6d80000000012492490;
   0x24800000b6db6db65b6db6db6db6db6cb6db6db6092000002480000010400000092000002480000010400000092000000002d800b6db6db6092400006db6db6c;
   0x124000005b6d92db6db24b6c924b6db65b6db2db20000000104000000020000020000000104000000020000020000000000324005b6db6db0490000092492492;
   0x124000005bc013db6db00f6c80016db65924b05b00900000004000000020000000900000004000000020000000900000000320005b6db6db0000000012482492;
   0x24800000b6c92db65b65b6db6492db6cb24965b6012000002090000010480000012000002090000010480000012000000016d800b6db6db6092400006db24b6c;
   0x124000005b6192db6db2cb6cb2496db65800b24b20900000104800000120000020900000104800000120000020900000001928005b6db6db0490000092400492;
   0x124000005b6d82db6c82432cb6db6db65800320300000000000000000000000000000000000000000000000000000000001920005b6db6db0000000012400492;
   0x24900000b6db6db65964925b6496db6cb6db64960000000020000000100000000000000020000000100000000000000000b6c000b6db6db6092400006db24b6c;
   0x124000004924924b6880030cb0036db65b6db60b2000000010000000000000002000000010000000000000002000000000c944005b6db6db0490000092400492;
   0x2000000400080037080030cb0036db65801b2030000000000000000000000000000000000000000000000000000000000c90080402cb2c30000000012400492;
   0x402480096db6db25964925b6496db6cb2496c960000000020000020100000f0000000d82000016010000090000000d805b60900925965b2092400006db24b6c;
   0x20b6c004b6c16db6880030cb20b6db65801b60b2000000010000090000000f820000168100000b00000004820000178064a0480410cb0c30490000092482492;
   0x4924804b709ed37080030cb65b6db65805b6030000000000000090000000f80000017c000000f8000000000000007c064804104b0cb0c30000000012480492;
   0x4b6db6096db6db25964925b6db6db6cb64b6c96080000002c000124100001bc080002d82c00016c10000090080002580db04b20b6c964b2092492406db24b6c;
   0x2db6db04b2096db6880030cb6496db65b6db65b2000000010000090000002f82000036c100000b0000002482000017c025020905b04a0430492492092400492;
   0x24924904b2004537080030cb6016dc25b65b6db00000024000000920000024800000124000000920000024800000124024020825b8400430000000012000092;
   0x5b6db6096592cb25964925b65925b64b6496cb64925b6d92492db6c124b6db64925b6d92492db6c124b6db64925b6d92d821964b6cb6496092492486c92496c;
   0x2db6db24b20065b6880030cb2c02d825b00b05b24924924924924904924924824924924924924904924924824924924320104105b04064b0492492492080492;
   0x124924924b2004537080030ca2c02dc25980107b24900000124800004924000024900000124800004924000024900000300804105b04060f0092492012480492;
   0xdb6db6c96592cb25964925b64b25b64b2c924b6492492482492492412492490492492482492492412492490492492486812432cb64b2c96012492486db65b6c;
   0x12db6d924b20065b6880030cb05b0d82586002db24924924124924900924924824924924124924900924924824924924b0082082410c160b0092492092492492;
   0x24924924b2004536c80032ca05b05c2583082db00000000000000000000000000000000000000000000000000000000b0010082402e160b0090000012412092;
   0x5b6db6c96592cb25b6db6db6496db64b2596db60924924824924920124924900924924824924920124924900924924860024864b25b2d96012492406d92c96c;
   0x24924904b20065b6db6db6cb00b6d82580db6db24924920124924900924924024924920124924900924924024924920b00104105b6db6db0092490092012012;
   0x24924904b20045360000004a00b00025807b6db00000000000000000000000000000000000000000000000000000000b00020105f6db6db0092480010092012;
   0x25b6db6c96db6db25924b24b6496c92cb24b6db6092492402492492012492480092492402492492012492480092492406000490cb6db6db6012492006c96d92c;
   0x12db6d904b6db6db6596592cb24b24965801b6db04924900124924800924924004924900124924800924924004924900b00020825b6db6db0092490092492492;
   0x25b6d90400000036db6db6cb6db6db65801b6db00000000000000000000000000000000000000000000000000000000b00000025b6db6db0092490012492492;
   0x592492cb24924965b6db6db6db6db6cb64b6db60924920004924900024924000924920004924900024924000924920060000000b6db6db6012492006db6db6c;
   0x20000105b6db6d82db6db6c36db6db65b6db6d800800800020004000100020000800800020004000100020000800800b00000005b6db6d80092490012492492;
   0x92492480492492012492490092492480000000000000000000000000000000000000000000000000000000000000000092492480000000000000000].
Definition emoji_rows_67 : list N :=
  [0x824000124924900000000000000000000000000000000024924924000000000000000000000900000000000000000000000000000000000000000000000000;
   0x24360005b6db6d80000000000000000000000000000000036db6db6000000000000000000002480000000000000000000000000000000000000000000000000;
   0x2402c005b65b6da0000000000010000000000480012480036d82db6000000000000000000002080000000000000000000000000000000000000000000000000;
   0xb05b00b6cb65b60000800000168000000000b0002db6006db24b6c000000000000000000004020000000000000000000000000000000000000000000000000;
   0x482d805b6582db0000000000090000000000c000b6db00b6c105b6000000000000000000000010000000000000000000000000000000000000000000000000;
   0x480d805b0182db00000000000900000000008000ffff00b64120b6000000000000000000410010000000000000000000000000000000000000000000000000;
   0x60b01b60b6cb65b6000490000012800000000180016db6c06c96d96c000000000000800004928008000000000000000000000000000000000000000000000000;
   0x90480db05b65b2db00024000000100000000008005b6db60b2196c16000000000002400002010010000000000000000000000000000000000000000000000000;
   0x12480db05b6db2db00000800000180000924920007ffffe0b0582c06000000000002400000010d92000000000000000000000000000000000000000000000000;
   0x6db65b6cb2492496002492000002c00036db6d800b6db6d86db25b2c00000000000490000406db6c000000000000000000000000000000000000000000000000;
   0x124825b64124924b00124900000100001924b2002db6db6cb6d82db6000000000012480010036db6000000000000000000000000000000000000000000000000;
   0x124924b6436db6c300020900000340001924b2002ffffffcb6d82db6000000000092490000037ffe000000000000000000000002000000000000000000000002;
   0x5b6d86cb6db6db6012492400002c00016db6d805b6db6d86db25b6c00000002012492402d96db6c000000020000000300000004000000020000000300000004;
   0x4920304b2cb2cb009249200003e000196cb2002db6db6cb6d96cb6000000030092490036db6db6000000030000000000000002000000030000000000000002;
   0x92030430c3043008200200003e0000904b2002ffffffcb6c160b6000000010092490036db7ffe00000001000001c000000082000002c10000000000000082;
   0x16d820b6592cb6092492480006c00016db6c005b6db6d86d92596c00000002012492406db6db6c00492482002496c300924b64004925a20024924300924964;
   0x920004b2c304b04924920000b60000b6db6002db6db6cb6c021b6000000030092490036db6db60924924304925be012492db2092492c304924920124924f2;
   0x92400400c10430000000000092000092492002ffffffcb64001b6000000490092490036db7ffe0924904924924be4124924f2092492e924924024124920f2;
   0xb6db00b64924b6492492480016d80016db6c005b6db6d86d924b6c800001b6012492406db6db6cb6db64b65b6db6db6db6db6cb6db6db65b6db25b6db6d96c;
   0x492400480c104b24924924005bec000b6db6002db6db6cb60165b6400002cb0492492036db6db65b6db25b6db6dbe4b6db65b25b6db2db6db6d924b6db64b2;
   0x482480400c104304924920005fec00000002002ffffffcb6016db6492492410492492036db7ffe492492412492492092492482492492412492492092492482;
   0x5b05b60b64924b61b6db6d80036da00000000805b6db6d86d92db6cb6db6db6092492486db6db6cb6db64925b6db24b6db6d924b6db64925b6db24b6db6d924;
   0x24024804b2cb24b0d96c96002592c00000000c02db6db64b6016db64924924b0492492036db6db64924924b64924924924924924924924b6492492492492492;
   0x2400490430cb2430497f920024924800000000007ffffe0b6016db6492492490002400036db7ffe492490012492480492492002492490012492480492492002;
   0x2d800b6cb6592cb61b6db6d805b6db6036db6d800b6db6c06d925b6cb6db6db6000580006db6db6cb6db6c925b6db24b6db6d924b6db6c925b6db24b6db6d924;
   0x120004904b2cb24b0c97f92002db6d800f64f60005b6db20b6c02db65b6db6db0492c92036db6db65b6db24b6db6d924b6db6c925b6db24b6db6d924b6db6c92;
   0x12000080436cb2430c97f920024924800c60c60000ffff00b6400db6492492490492492036db7ffe492492492492492492492492492492492492492492492492;
   0x6c00012cb6db6db61b6db6d82db6db6416406400016db6006c925b6cb6db6db65b6db6d86db6c924b6db6db65b6db6db6db6db6cb6db6db65b6db6db6db6db6c;
   0x100000904124924b0c97f92016dbedb00f60f60000b6d900b6000db65b6db6db2db6db6c36db60005b6db6db6db6db6cb6db6db65b6db6db6db6db6cb6db6db6;
   0x100000105800000a0c97f92016dbedb00fc07c000012480036000db6400000012492492436db6000400000010000000080000002400000010000000080000002;
   0x36db6db61b6db6d82db6db6c02c02c00002490002db6db6c800000025b6db6d86db6c000800000024000000360000004800000024000000360000004;
   0x92492480492492012492492000000000000000012492490400000000000000012492000400000000000000000000002400000000000000000000002;
   0x0;
   0x400000000000000000000000000000000000000000002c00000000000580000000000400000000006000c000000000024924924124924920020000000924900;
   0x178000000000000000000000000000000000000000000b60000000000024000000000020000000000800160000000000124924924824924801b6db40024b2480;
   0x1fc000000000000000000000000000000000000000000f000000000000240000000000200000000018003e0000000000120924924004924801b6db4002df2480;
   0x2db0000000092480000000000000000000000000000036000000000002db00000000b0500400000036186d80000000002492492492492492016db6c00db6db60;
   0x36f00000000492400000000000000000000000000000010000000000012482000000412016402400590cb60000000000900924924004924901b6db0016db2490;
   0x3ff800000024920800000000000000000000000000000100020000000124824000004020120020000821f2000000000010012492400492480092490016db2490;
   0x6d960000005b6c96000000000000000000000000000002000500080002d92580000492482492480c12436c00000000002492492492492492016db6c02db6db64;
   0x364e00000124924800000000000000000000100000000100020024000124924000124920124924100965b00000000000900124924924924901b6db0016db2490;
   0x3e4f0000012490080090000000000000000018000000010000000400002400000012480400092410012f90000000000012492492492492480092490016db2490;
   0x2db6c00012db24920b6c00000000000000000c000000000024925b00004b2480196c92480492492c02db6000000000002492492492db6d92016db6c02db6db64;
   0x16cbc0000924924805b6000000000000000016000000000036db6d80002492002c92480002092490192da00000000000924924924965b64901b6db0016db2490;
   0x25fe000000000482492400000000000000017800000000012492480000000000002400002012010087fc00000000000124924924924924801b6db4016db2490;
   0x2db6d800b24925b65b6db0000000000000002d80000000402db6db00000924804925b0000002c92c06db4000000010002492492c92db6d92036db6c02db6db64;
   0x16db7800492492582db6d80000010000000016000000000036db6d80000492002480480000032010016d800024000800924924b6492492c901b6db0016db2490;
   0x12fffc00492492580c9248000000000000000300000000001249248000000040008048000001200003fe80002c00190092492492492492480092490016db2490;
   0x2cb6db0036db2db05b6db6002c02002c06c80580000000402492492400492590010092000000500406db2000580492486db25b6c92492492016db6c02db6db64;
   0x5b6f00092496c064b6580036c925b603fc028000000020124924900024924800000000000020000b6c900024924924925b6c924b2db2c901b6db0016db2490;
   0x1fff80092496007c125a003fcffffe03fe03c000000020124924800024024800000000000000001f2000002492492012492492492c92480092490006db2490;
   0x16db6016db6c805b2d96012db6db6c16d80180000000402db6db6000592cb2000000000000000036c124001b6db6c06db6db6cb6db6db6016db6c005b6db60;
   0xb64e0016d924027b64b04165b6db00b6c00c00000002016db6d800824124924924924924924925b0012082492492092492492492db64901b6db4006db2490;
   0x3e4f00024000001f601e4124924920ffc00c000000120124924924824024824924924924924927900001c24924924124924924924964801b6db4002db2480;
   0x2db6c00492490496c92586cb6db6c36d805b05b0002c06db6db6c804805964924924924924924b60004b65b6db6db6db6db6cb6db6db6016db6c005b6db20;
   0x16cbe00249240249e4964924924925b6c02d824800120924924924904024824924924124924925800025a2492492492c92592496d964901b6db0002db2480;
   0x25fe0000000000070300124924927ffe97fc3c80012c12492492400000400000000000000000080000d82492492412492492496492480092490000db2480;
   0x2db6c004924904925b6496db6db6c36db6db65b4006db6db6db6c024000b04924924924924924000001b05b6db6db6db6db6cb6db6db6016db6c000b6db00;
   0x16db6002492482492f924924924925b6db6cc6d92496e92492492012000402492492412492492000002d824924924964924b24965b6c901b6db00005b2400;
   0x127f800000000000048001249249219ffffcc649248ee12492492000000002492492412492492000007c024924924124924924b2492c800924900000f2400;
   0x2cb6800492492492492496db6db6c36db65b6db6db6db6db6db6c120000005b6db6db6db6db6c00000d905b6db6db6db6db2cb6db6db6016db6c00016c800;
   0x900024924824924924924924921b8000dc6d00006c92492492092000006db6db6cb6db6db6000006c02492492412db6d924b6db6c801b6db0000092000;
   0x124924920f0000f83c00007c124924920100000024924924924924920000020024924924124924924f24926801b6db4000000000;
   0x4924920924924824924924060000301800005824924924000000004924924924924924000000004924924924924924124924900124924000000000].
Definition emoji_rows_68 : list N :=
  [0x92492480492492012492490000000000492492012492490092492480002400000012000000480000000000000012000000000000000000000000000;
   0x4000004924924824924924124924900924924824924924124924907ffffffc00124800000924000004900000024000000920000000b0000000000000000000;
   0x900000b6db6db65b6db6db6db6db6c924924925b6db6db6db6db6cb6db6db6016db60000b6db00005b6c800024920000b6db0000016c800000000000000000;
   0x24800005b6db6db24924924924924924924924824924924924924925b6db6db01b6db00024924800124924000924900024924800000b2400000000000000000;
   0x20800004924924924924924124924924924924824924924124924927fffffff04924920024924800124924000924900024924800000b2400000000000000000;
   0x4920000b6db6db65b6db6db6db6db6c924924925b6db6db6db6db6cb6db6db60b6db6c005b6db6006db6db00924924005b6db60000164900000000000000000;
   0x24900005b6db6db24924924924924924924924824924924924924925b6db6db0db6db60124924900924924804924920124924900000b2480000000012492400;
   0x800004924924924924924124924924924924824924924124924927fffffff04924920124924900924924804924920124924900000f2400000000012492400;
   0x4924000b6db6db65b6db6db6db6db6c924924925b6db6db6db6db6cb6db6db61b6db6d82db6db6c16db6db0092492482db6db6c000164900000000024924900;
   0x24900005b6db6db24924924924924924924924824924924924924925b6db6db2db6db6c12492490092492482492492412492490000192400000000012492400;
   0x800004924924924924924124924924924924824924924124924927fffffff2492492412492490092492482492492412492490000392400000000012000480;
   0x4924000b6db6db65b6db6db6db6db6c924924925b6db6db6db6db6cb6db6db65b6db6da6db6db6c36db6db6492492486db6db6c000b64900001b60024820300;
   0x24920005b6db6db24924924924924924924924824924924924924925b6db6db6db6db6c12492492492492482492492412492492000d92480002da0012000480;
   0x4000004924924924924924124924924924924824924924124924927fffffff2492492412492492492492482492492412492492002c92480003c30012000480;
   0x4924800b6db6db65b6db6db6db6db6c924924925b6db6db6db6db6cb6db6db65b6db6db6db6db6cb6db6db6492492496db6db6c00db24900001920024020360;
   0x24924005b6db6db24924924924924924924924824924924924924925b6db6db6db6db6c92492492492492492492492492492492016492480002c90092000480;
   0x4000004924924924924924124924924924924824924924124924927fffffff2492492412492492492492482492492412492492016492480003810012000480;
   0x4924920b6db6db65b6db6db6db6db6c924924925b6db6db6db6db6cb6db6db65b6db6db6db6db6cb6db6db6492492496db6db6c124924b64925b6c06c060360;
   0x124924905b6db6db24924924924924924924924824924924924924925b6db6db6db6db6c92492492492492492492492492492492092492de2492db6cb60205a0;
   0x4900004924924924924924124924924924924824924924124924927fffffff2492492412492492492492482492492412492492092497fc2493fffcb6020580;
   0x4924920b6db6db65b6db6db6db6db6c924924925b6db6db6db6db6cb6db6db65b6db6da6db6db6c36db6db6492492486db6db6c12496db65b6db6d86d82c360;
   0x124924905b6db6db24924924924924924924924824924924924924925b6db6db2db6db6c124924924924924824924924124924921b6df0f82db6db6cb6c365b0;
   0x4924924924924924124924924924924824924924124924927fffffff24924924124924900924924804924920124924901fff80783ffffffcb2c3e590;
   0x4924920b6db6db65b6db6db6db6db6c924924925b6db6db6db6db6cb6db6db61b6db6d82db6db6c16db6db0092492482db6db6c36db6db61b6db6d86d82c36c;
   0x124924905b6db6db24924924924924924924924824924924924924925b6db6db0db6db68124924900924924804924920124924904b2492482ff6dbecb6c365b6;
   0x4924924924924924124924924924924824924924124924927fffffff0492492002492490092492400492492002492490492400480fffff7c9fc3e5b8;
   0x4924920b6db6db65b6db6db6db6db6c924924925b6db6db6db6db6cb6db6db60b6db6c005b6db6006db6db00924924005b6db60b2d800b64b6db6596db6db6c;
   0x24924905b6db6db24924924924924924924924824924924924924925b6db6db05b6db6002492480012492400092490002492480497c00f804b00d60b2db6d96;
   0x4924924924924924124924924924924824924924124924927fffffff00924900004924800124920000924900004924800174007806b00d6033c92496;
   0x924920b6db6db65b6db6db6db6db6c924924925b6db6db6db6db6cb6db6db6016db60000b6db00005b6c800024920000b6db0002d800b6036006c02d80016c;
   0x924805b6db6d824924924124924920924924824924924124924925b6db6d80016d8000009240000249000001248000009240000200048018001001e0000bc;
   0x92492480000000000000000000000000000000000000000092492480002400000000000000000000000000000000000000000000000000002000010;
   0x24000000120000004800000000000000000000000000000000000000000000000000000000000000000000020000000100000004000000020000000000000;
   0x92000000490000012480000000000000000000000000000000000000000000000000000000000000000000090000002d80000016000000090000000400000;
   0x92400002490000012480000000000000000000000000000000000000000000000000002400480000000000090000003f80000016400000090000002480000;
   0x924900024924800124924000000000000024000000900000004800000020000000000005b25b6002482490012c000005b6000002db0000036c000004920000;
   0x24924800124924000924900000124000005b6000002d90000012400000092000000480016d82db0092412400492000006db0000036d80000492000002490000;
   0x2492480012492400492492000000000002db6c00012490000092480000000000000000012492490000000000010000007df0000012c80000492000002080000;
   0x496592012492490092492480092492002db6db0016db6c000b6db6000492480012492402db6db6c124924920124800005b6800006db00000b6d800004920000;
   0x12592c900924964804924920024924900b6db6d005b6db6002492490012492400492492036db6db6092492480492000006db00000b6d80000492000002490000;
   0x12792c900934964804924920000120001b6ffed82492592012492490000490000002000012492492000000000010000006ff0000092c80000492000000080000;
   0x25b24b6412d92d90092492482492492436db6db05b6db6d82db6db6c124b24904924b2486db6db6c12492492092480000db6c00016db40000b6d800004924000;
   0x12c92590092c924824b24b24124124905b65b6d82d96db6c124164900904924824824920b6db6db6492492480492400016db60000b6d800004b2400002490000;
   0x12492490093c964824f24f24000024001807fff824024b241001249000048240000240001249249200000000001000000eff6000092c80000492400000480000;
   0x24b25b2412d92c92496c964800064964100b6db60005b6d80006db6c00036492000492486db6db6c12492492092c90000db6d80016db60000b6db00004b24000;
   0x12592c92496c924824b25b24000124900905f6d80406db6c00016492000492480002492436db6db6492492480492480016db6c000b65b0000492480002492000;
   0x2793c92497c9e4824f24f24000024801b27ffd80482c9641241249200049040000249001249249200000000001000001efb6c00096492000492480000400000;
   0x2cb65b2492592c92496496492496492436db6db61b6db6da2db6db6c124b6c92092492482db6db6c12492492092492000db2db0016db6d800b65b60004924900;
   0x92592c924924964824924924124924921b6df6da2db6db6c12496c92092492480492492436db6db4092492480492490016db6d800b61b6c00492490002492480;
   0x2592c924924924824924924000024800b6fffda0496c92402492492000490400002490012492490000000000090000016f96da0096092400490492000490000;
   0x2592492492492492492492490096c92402db6db6016db6db00b6db6c004b6c92012492482db6db6c12492490096492400db2db6016d96db00b6db6c804904920;
   0x12c924924b6496c82492492400492492006fb6da0036db6c004b6c92002492480012492416db6db0092492400492492016db6db00b6db6d804b2492012492490;
   0x12c9249009edb7c82492492400012480002fffd80012db2400092492000092400002490002492490000000000012000016ff6db0092c92480492492000490000;
   0x24b6492412db6d92496db64800125b24001b6db6002db6d80016db6c00092d920004924805b6db6002492480092492482db6db6c16db6db00b6db6d804924920;
   0x125b2490096cb64824924b2400092490000db6d80016db6c00092490000492480002492402db6d80012492000492492016db6db01b6db6d80492492012492490;
   0x124f24900964164824924b2000000000000db6d80002492400092490000000000000000000492480000000000000000016db6db0092492480492492010000000;
   0x496d92012592c904b64924800024924000b6db40005b6d80006db6c000924900004924800b6db0000492400092492480db6db6c16db6db00b6db6d804924920;
   0x25b6c90092c324024924920000124900005b6d80002db6c000124900004924800024920005b6c00002490000492492016db6db00b6db6d80492492012492490;
   0x24924800124924024924920000000000001b6d8000249200001249000000000000000000009240000000000000000001edb6db0092492480492492000000000;
   0x492492002592c800b2492400000492000016db00000b6d80000492000012490000092480016d80000092000092492480db6db6c16db6db00b6db6d804924924;
   0x492480012c12000492490000000000000000000000000000000000000000000000000000036000000080000492492006db6db00b6db6d80492492002492490;
   0x92400002410000412480000000000000000000000000000000000000000000000000000010000000000000080002002ff6ff0012492580092492000480090;
   0x124800000b64000824900000000000000000000000000000000000000000000000000000000000000000000024924000b6db60005b6d90002db6c000124920;
   0x80000000000000000000000000000000000000000000000000000000000000000000000000000000480000012400000092000000480000002000].
Definition emoji_rows_69 : list N :=
  [0x2000000000000000000000000000000000000000000000000000000000000000000000000000000000000000000000000000000000000000000000000000;
   0xd000000060000000b0000000400000002000000000000000000000000000000000000000000000000000002490000012c800000924000024900000124800;
   0x60000000b00000004000000020000000900000000000000000000000000000000000000000000000000000124800004b6400002492000012480000492400;
   0x6000000090000000400000000000000000000000000000400000002000000010000000000000000000000092490002db6d80000000000092490000492400;
   0xd800000068000000b00000004800000020000020000000300000005800000020000000100000004800000124924005b6db60024924800124b64004924920;
   0x6c000000b0000000480000002000000010000010000000580080002c00000010000000480000002000000492492002db6d80012492400492db2002492480;
   0x6c00000010000000480000000000000000000000000000580180002802000010010000080000000000000492492002492490002400000492492002492490;
   0x5b0000002c00000036000000480000002400002402400030030000580180002c02c00010010000480080096c96400db6db6012492490096c924805b24b60;
   0x2d00000016000000090000002400000012000010010000580180002c02c000100100004800800020020004b65b20124924900924924805b2592017f92ff0;
   0x2d800000124000000900000000000000000000000000005801800028020000100100000800000000000004be7b20120920900900024804b25d203e5ffcbe;
   0x165b6000092db0000496c00012492000092480002402400030030000580180002c02c000100100004800800924b2482c92c96c12492492096cb6482cb6db2c;
   0x1b6db0000db6c00012492000092490000492400010010000590180002c02c00010010000480080002002000492492012590c124924924824b25924125b6c92;
   0x1b6fb00004924800124920000000000000020000000000005b0180002c82000012010000080000000000000492492012f90f120124924824b249241a7f6e98;
   0x16db6c001b6db0000db6d80012492400092490002492400036db00005b6d80002d92c00012490000492480092492486cb2db2c92d92d92492492482cb65b2c;
   0x1b6db6002db6d800124924000924900004924800124900005b6d80002db6c000124900004924800024920024924b2412590c12496cb6c8249249241e5f6cb2;
   0x5fffb60024b64800124924000924000000920000004000007fef80002c960000124900000904000004000004b24d2012012410496cb6c8249249241e5d3cb2;
   0xb6db6c005b6db6002db6d80012492400492492002c924000b6db0000db6d80006db6c00096490000492480092db6482d96c96c92492492492496482db65b64;
   0x5b6db6002db6da0012492400492492002492480092490000db6d80016db6c00092490000492480002492000496d92012492490492492482492c92412d92d92;
   0x1fffb6002496480012492400092400000482000000400000db6f800124b6000092490000002400000000000497e92002492490492492482496c92412492492;
   0x36db6c005b6db6002db6db00124924004924920124924001b6db0000db6d80016db6c000924900004924804b6596580db6db6012492492092c964824924924;
   0x5b6db6006db6db0012492400492492002492480092490002db6d80016db6c00092490000492480012492002492492402492490492492482492492412492492;
   0x5b7fb6002496480012492400000400000000000012480002fffd800124b2000092490000092400000410000492492002000010092592480492492012c92590;
   0xb6db6c005b6db6002db6d800124924004924920124924001b6db0002db6d80016db6c000924900024924804b6cb6cb0c924920124b6490092db6c824b25b24;
   0x5b6db6002db6d80012492400492490002492480092490002db6d80016db68000924900024924800124920024b24b2402090090092db24804924920125b6c90;
   0x27f6db4012492480092492400000000000000000000000002dbed80012592000092490000010000000000000492492002090490092492400492492002590c90;
   0x2db6db6c16db6db04b6db6d824924924124924900124920001b6db0002db6d80016db60000924900024924804b6cb6cb0db6db60124924900125b6c004924920;
   0x36db6db05b6db6d82492492012492490492492400092490000db6d00016db60000924900004924000124920024b24b2416d92db0012492400092490002490480;
   0x36db6d80492492402492492000000000000000000000000000dbec00002492000092480000010000000000000492492012492492012492400012490002490480;
   0x2c92db00324b6d804904b64024024900120124800024920000b6d800005b6c00006db20000924800004924000b6c36c06db6db6c024924800025b6c000924900;
   0x24000000920000004800000000000000000000124800005b6c00002db00000124800000920000024900004b0092036db6db6002492000002490000492400;
   0xb6000000490000012400000000000000000000090090012492490000490000000490000092000;
   0x4800000024000000900000004800000024000000100000020020000000000000120000000120000024000;
   0x400000002000000000000000000000000000000000000;
   0x400000002000000090000000000000000000000000000;
   0x120000004b2000002d100000160000004920000024000000004000;
   0x492000016db00000b6500000492000002410000092400000002000;
   0x8000001fdf0000092400000492000000080000010000000000000;
   0x400000002000000000000000000000000000080000000400000000000000000000000000092400000db6000016db00000b6d800004920000124900000004800;
   0x2400000010000000480000000000080000002c00000016000000480000002400000012000492000096db00004b6d00002492000012490000092400000002400;
   0x2480000000000000000000000000000000016c000000920000004900000000000000000000800000bfdf0000492c00002492000010080000010000000000000;
   0xdb6400012490000092480000002492000016db00000b6d800025b6000012490000092480492400016db60000b6db00005b6d800024920000924900000000900;
   0x124920000924800004924000000124900025b6d80012db60000924900004924800024920024920000b6db0000db6d00002492000092490000492400000000480;
   0x124924920800000000000000000000105b6db6d824924920124924900000000800000000000800000bfdf0000592c00002492000010080000010000000000400;
   0x2db6db6c12492492092492492492492cb6db6db45b6db6d86db6db6c92492490492492480492400016db60000b6db00005b6d800024920000924900000124920;
   0x12c924920924924824924924124924905b6db6d86db6db6c924925904924924824924924024920000b6db0000db6d00002492000092490000492400000092490;
   0x124924920100000020800000000000805b6db7dc24924b24124924900000024800000104000800000bfdf0000592c00002492000010080000010000000000000;
   0x2db6db6c124924924924924924924b24b6db6db65b6db6da6db6db6c92492492492492480492402016db60300b6db04005b6d820024920100924904000124b24;
   0x124924924924924824924924124924925b6db6da6db6db6c924924924924924824924924024920100b6db0d80db6d06002492090092490400492402000492490;
   0x124924924120000000800000000004825b6dbffe24924964124924920000024000000100000000000b6db0d00492412002492090000000000000000000000000;
   0x6db6db6c924924924924924924924924b6db6db65b6db6db6db6db6c92492492492492490492412016db61b00b6db2c005b6d960024920900924904000124924;
   0x924924924924924824924924124924925b6db6db6db6db6c924924924924924824924924024920800b6db2c00db6d96002492080092492400492410000092492;
   0x124924920020000000100000000004005b6dbfda24924924124924920000120000000800000000000b6db2c00492490002492480000000000000000000092400;
   0x25b6db6c12c924924924924924924b24b6db6db65b6db6d86db6db6492492592492492480492490016db6d800b6db6c005b6db00024924800924920000924924;
   0x2492492012492000492490000492480496db6c024b6db60104924804024924000924920024924800b6db6800db6db0002492480092492000492490000492492;
   0x2492400000000000000000000000000002db6e000124920000924800000000000000000000000000b6db6000492490002492400000000000000000000012000;
   0x5b6c800024920000924900000124920001b6db0002db6c00012db6000092490000492400492490006db6d800b6db60005b6db00024924800924920000124924;
   0x24900000124000004900000000024800000b6c000005b60000024800000124000000900024924000b6db60005b6db0002492400012492000492490000492490;
   0x2400000000000000000000000000000000000000000036db6000492490002492400000000000000000000000000;
   0x492480006db6c00036db60005b6d900024924000124920024924920;
   0x2492400036db60001b6d80002492400012490000092480012492480;
   0x16db0000092480000492000000000000000000000000000;
   0x92480000db6000016db00000b6c800004920000024900000004800;
   0x90000002d90000016c00000092000002480000012400000000000;
   0x400000002000000000000000000000000000000000000].
Definition emoji_rows_70 : list N :=
  [0x100000000800000020000000100000000000000000000000000000000000000000000000000000000000000000000000000000000000000000000000000000;
   0x80000002c00080010000000080000002000000010000000000000000000000000000000000000000000000000000000000000000000000000000000000000;
   0x2c00180010000400080010000000000000000000000000000000000000000000000000000000000000000000000000000000000000000000000000;
   0x10002400580036002c00180010002c004800100024000800100000005800000020000000300000004800000020000000000000000000000000000000000000;
   0x80010002c00180030002c00080010002400080010002400480000006c00000032000000480000002000000010000000000000000000000000000000000000;
   0x2c00180010002400080010000000000000000000080000003d00000012000000090000000000000000000000000000000000000000000000000000;
   0x12002400180034002c00580016002c000800100024000800120000005b0000002d800000360000004900000024800000104000024000000b60000005900000;
   0x80010002c00580016002c00080010002400080010002000090000002d80000016000000090000002480000012000000090000092000000db2000006d80000;
   0x2c00580012002000080010000000000000000000010000003d80000012000000090000000000000010000000090000080000000db6000012490000;
   0x124124001b25b0002c86580016412c000804100024024800120000001b0000002d800000160000000900000024000004924920124920001b6db2480db6c804;
   0x82490002cb6d800164b6c00092490000492480012412000090000000d00000016000000090000000400000012000012482490092492482db6db6c16db6db6;
   0x80000db7d80012492000092490000010400000000000000000000e00000012000000080000000000000002000012480000000000003df6db6c12492492;
   0x124924001b6db0000db6d80016db6c000924900004924800120000001b2000002c10000016080000090000002410002492492412c924925b6db6db2db6db6c;
   0x92490000db6d80016db6c00092490000492480012492000092000002d30000016180000092000002410000012080012492490092492482db6db6c36db6db6;
   0x10080000fbfd80012492400092490000010000000080000000400002f3e000016090000092400000400000000000012480000012000003ff6db6c32c92492;
   0x124924001b6db4000db6d80016db6c000924900004924800120900005b2d80006db6c000365b00004924800024924024924924124924925b6db6db6db6db6c;
   0x92490080db6d80016db6c00092490000492480002492400492480006db6c000b6db0000492480002492000012490012492490492492486db6db6cb6db6db6;
   0x100801b0fbfd82402492412092490000010000000090000002400007ffec00092490000492480000082000000400002080000412000006ff6db6c92492492;
   0x2492492436db6db65b0db6d82d96db6c12092492490492480092490000db6d80016db6c000b6db00004924800124924004924920925924925b6db6db6db6db6c;
   0x124924901b6db6d82d96db6c12492490092492482492492400492480016db6c001b6db0000492480012492000092490002492480492492486db6db6cb6db6db6;
   0x100000b6fbfd80492492402492490000092000000090000092400017fffc00096c90000492480000482000012400000010000012000002ffedb6c12d92492;
   0x4924b2402db6db60b6db6d805b6db6c02492c92012492480096490002db6d80016db6c001b6db00024924800124924000924900024924920b6db6cb05b6db24;
   0x492490016db6d800b6db6c00492490002492480092492402492480036db6c001b6db00024924800124920000924900004924000124900005b6d80006db6c00;
   0x2000006dfed80012d92400492490000090000000400000010000016fb68000924900024924800000000000000000000104000000000005b6c80002492000;
   0x124924005b6db6002db6d80036db6c00492490002492480092490002db6d80016db68001b6db00024924800124920000124800024900000b6d800005b64000;
   0x92490002db6d80016db6c00092490002492480012492000492400016db60001b6db0002492480012492000092490000092000000000000080000002400000;
   0xdb6d80012492000092490000000000000000000010000016db6000092490000492400000080000000000000010000000000000000000000000000;
   0x124920001b6db0000db6d80016db6000092490000492480092490000db6c00016db60000b6d900004924000124920000024000000000000000000000000000;
   0x12480000db6c00006db6000092490000492400002492000492400006db60000b6d80000492400002490000012480000000000000000000000000000000000;
   0x5b6c00002490000012480000000000000000000000000002db0000012480000092000000000000000000000000000000000000000000000000000;
   0x490000016d800000b60000025900000124800000920000124000001b6000002db0000016c000000920000004900000000000000000000000000000000000;
   0x10000000080000000000000000000000000000000000000480000002400000010000000000000000000000000000000000000000000000000000;
   0x10000000000000000000000010000000000000000000000000000000000000000000000010000000000000000000000000000000000000000000000000000;
   0x16d800000b60000005b0000016d800000900000004900000124800000b60000005b0000016d800000000000024900000124800005b6c004924904800165800;
   0x5b6d80002db0000016d800005b6d00000480000012480000092400002ff000001ff800007fff80000090000092490012492400002492006c92496c001b6c00;
   0xffff80007ffe00003ffc00007fff80000000000000000000000000007ffe00003ffc0000ffff800004900000924900124b24000124920024000024007bfc00;
   0x1b6db4000db6d80006db60001b6db4000492400002492000092490000db6d80006db60001b6db4000092480012492402db2c92002db6d805b24925b2036da04;
   0x2db6d80016db68000b6db0002db6d8001249200009249000049248001ffbf8000ffff0003ff7f80002492400492492012492480092492406c92496cb05b6c06;
   0x3ff3fc001fcbf8000fe5f0003f93fc000008000000000000001000001fcbfc000fe5f0003fd3fc00024924004924f201249a4900924924024000024f07b7e1e;
   0x5b6db6002db6d80016db68005b6db6002492480012492000092c92002d92580016c968005b25b6002492490096c96c86db6c92016db6db05964965b6db6db6c;
   0x2db6f80036496c001b24b0002d9258001249240009249000249248003e493c001f24b0003c927c00124924825b24964124b64900924924864b24b2436db6db6;
   0x3fb67c003e493c000d2490003e925c000248000001240000009000003e083c001d2410003e005c001249248079249601249e4900924924800f00f003ffb6ffc;
   0x5b6db6002db6d80016db68005b6db6002592480012492000492492002d925800164928005b24960024b25924b2492482d92c92436db6db6496496482db6db6c;
   0x2db6d80032492c00192490002c92480012492000092490002492480032492c001924900034924c0012d92c82492492416c96492497cbec825b24b2406db6db0;
   0x3c925c0032492c000924900034924c0000400000010000000080000030000c000800100030800c0012e93c8249249241ec9249249fcbfc800f00f0003ffff80;
   0x5b6db6002db6d80016db60005b6db6002592480012c92000496492002d92480012c920005964960025b2592496c96c92cb24b24b6db6db64964964905b6db20;
   0x2db6d80012c928000b6590002592c80012c92000096490002592480012c928000964900035924c0092492c825b65b2436592592496c96492492c92402492490;
   0x3c925c00124920000924900034924c00024900000124800000924000104908000004800030024c009249248259649241e1927f2492492480487c12002592c90;
   0x5b6db6000db6d80006db60005b6db60004b6c800025b6000492d92000c96d800025b6000592d96036db6492492492492c964b6cb6db6db64b2db2d904b25b20;
   0x2db6d800125b6000012d80002cb6d800024b6000012d80002496c800124b6000012d80003c96dc04924924824924924360b2592496c96492c96c92412592c90;
   0x3cb25c0002492000012480003c925c0000092000002480000012400000092000002480003c125c049249248249249241f032592492c96480487c12002793c90;
   0x5b6db60005b6c00002db60005b6db60004b6c000025b6000092db00004b6c000025b6000592db6036db6492492492482d92c964b6db6db65b6592d804b25920;
   0x2db6d800025b6000012db0002cb6d800005b6000012db00024b6d800005b6000012db0003cb6d80092492482492492416c16492492db2482592492412492490;
   0x3f96480000492000002490003e92480000092000000490000012580000092000000490003e0248001249248249249241fc06490092ff2480480012002492490;
   0x1b6db0000036d800005b6c001b6db0000016d800004b6c000925b0000016d800004b6c001b25b00024b6490092db6482db25b6c36db6db60964964804b24b20;
   0xdb6d800004b6c000025b0000d96d800004b6c000025b0000492d800000b6c000025b0000d92d800125b2482492d92416d82c90092cb24804b6db2002592c90;
   0x2d96480012492400092490002d92480012412400090490002482480012412400090490002d82480002496400492c92003fd0490092c9648003ff80002593c80;
   0x5b6db6002db6d80036db6c005b6db6002d92d80036cb6c005b65b6002d92d80036cb6c005b65b60004924900924924805b6cb6c16db6db0092db2400496d920;
   0x6db6d80036cb6c005b65b6006d92d80036cb6c005b65b6006d92d80036cb6c005b65b6006d92d80002492400492492002db6c90092496400496c920024b6480;
   0x2c92c80012492400492592002c92c80012492400492592002c92c80012492400492592002c92c800004920000924900027ffc90012492400002400000492480;
   0x5b6db6006db6db00b6db6c005b6db6006db6db00b6db6c005b6db6006db6db00b6db6c005b6db60000924000124924000b6db6c02db6d800124920000924900;
   0x6db6d80036db6c005b6db6006db6d80036db6c005b6db6006db6d80036db6c005b6db6006db6d800000900000924900004b6490002492000012480000492400;
   0x2c92c80012492400492490002c92c80012492400492490002c92c80012492400492490002c92c80000000000012400000092090000490000000000000012000;
   0x4924900024924800124924004924900024924800124924004924900024924800124924004924900000000000004800000024000000920000000800000024000].
Definition emoji_rows_71 : list N :=
  [0x2400000000000000000000000000000000000000000000000000000000000000080000000000000000000000580000000000000000000;
   0x92000000490000017f80000092000000490000002400000092000000490000000000000010000000480000007c000000be000003ff6000002400000016000;
   0x92490000492400016db6000092490000492400032492c00092490000492400002490000012480000492480003ff000001ff800007fff80002db0000016d800;
   0x4924800124920001b6db00004924800124920005924960004924800124920000124800000924000024920000fffe00007ffc00007fffc000b6da00005b6c00;
   0x4924800124920005ffffe000592c800100924004924920025924800124924000924900004924000024920000ffff00007ffe0001ffffc000ffff00007ffe00;
   0x4924920024924800b6db6d005b25b20024924900b6cb6c005b649200249249001249200009249000249248001ffff8000ffff0003ffffc0016db68000b6db00;
   0x2492490092492400db6db6002c92590080412402db65b6c02db24900924924000924900004924000124924001feff8000ff7f8003ffbfc001b6db0000db6d80;
   0x2492490092492400ffffff8064924f0083c124024924924074b24900924924000920100004924000124924003ffffc000ffff8003ffffc001f6db8000f92780;
   0x4924920124924901b6db6d80c924960125924905b6c96db2d924924124924900124924000b249000259248003edb7c001f6db0003fb6fc0036db6c001b6db00;
   0x12492490092492482db6db6c12492490082c12482db24b6416492d900924924800924900004924800124924007f6dbc000fb6f8003edb7c001b6db4000db6d80;
   0x12c9259009749e483ffffffc12792c90080010482492492412493f900b6492c800924100004900800120004003fffbc001ffef8003fff7c0039249c000db2580;
   0x25b25b6412d92d925b6db6da24b25b24124924924b6cb6d824b2596416d92db2012492400092490002492480036db6c001b6db0003db6dc0036db6c001b6db00;
   0x12592c90096cb6c86df6dfec12592c90480092082db6596412592c92496cb64800924900004924800124924003b6dbc002db6d80036db6c001b6db0000db6d80;
   0x127d3c90092492487ffffffe12592c90480007082492492412792e92497cbe480098000000080000012c004003befb8000ff6d8003fdb7c0019e498000592480;
   0x25b65b64124924925b6db6db24924924924925924b24925924b25b2492d92d92012c920000b6590002592c80036db6c000b6db0003db6dc0036db6c000b6db00;
   0x16c925b2492492486dfedf6c12492492492492482492492412592c924b2492c80092590000492c000124b24001b6db0000db6d00036db6c001b6db00005b6c00;
   0x124be490092492487ffffffe12492490492490482492492412792c924924024800824900000124000104b24001be4b00005f240003ef97c000964900004b2400;
   0x24b6d924125b2c925b6db6db2492c92492d92492496492c924b24924924924920125b6000092db00024b6c80016db60000b6db0003db6dc0016db60000b6db00;
   0x12592c90092492486db6db6c124924904b2d924825b6db2412492492492492480012d80000496c000125b64000b6db00005b6c0003edb7c000b6db00005b6c00;
   0x12492690092492487ffffffc124924904b05f64825bff9a412492492492400000003c80000012400010596400037c800005f240003ef93c00013c800000b2400;
   0x25b6db24125b6d905b6db6da2496d92412c96d924b2492c824924924124924920025b6000012db00024b6d80002db6000036db0003db6d80002db6000016db00;
   0x12cb6590092492482fb6df7c124b64900b6002c825800324125b6c900924824800025b0000096d800124b6c00016db00000b6d8003fdb6c00016db00000b6d80;
   0x2c92590092492403e924d7c0249249009e4034805f00f20127b6c9009fc00000000490000002480012492000003c9000003e48001fd92800002c90000016480;
   0x5b6db2002cb6d901b25965804b6c92012db6d90096db6482492492412db24900124b6c000925b0000d96d800125b6c00096db0000db6d800125b6c00092db00;
   0x2c92580012492400d96d978024b2480096db64804b6db20124924900924920801b25b0002d92d80016cb6c001b6db0002db6d80016db6c001b6db0002db6d80;
   0x2492480012492400cd61830024924800924924004bff92002492490092480000490492002482480016c12400496c920024b64800127f2400492492002492480;
   0xb6db00025b6d80092c965800b6c900025b6c90092db24004924920024924900b6cb6c005b65b6006d92da00b6db6c005b6db6006db6da00b6db6c005b6db60;
   0x496400002492000db6df60004b2400012db64000924900024924800124904805b65b6006db6da0036db6c005b6db6006db6da0036db6c005b6db6006db6da0;
   0x4924000004920007ffffe000092000002492000092490000492400002480000492492002c92c800165b2400492492002c92c800164b2400492492002c92c80;
   0xdb6db6000096c00016db6000016c000004b6c000024920000924900004924800b6db6c005b6db6006db6da00b6db6c005b6db6006db6da00b6db6c005b6db60;
   0x2492490000092000016d800000b20000005b00000124800000920000004920005b6db2006db6d80036db6c005b6db2006db6d80036db6c005b6db2006db6d80;
   0x2400000010000000080000000000000000000000000000080080002492400012492000080080002492400012492000080080002492400;
   0x24000000120000004800000024000000100000004800000024000000120000000800000024000000100000000800000000800;
   0x120000007f0000006c000000b6000000480000007c000000120000027f0000002c00000436000000080000003c00000002400;
   0x49200001eff80001dff80000cffc000000000001dff80000412000007ff80000f7f800007ff0000000000000f7f80000000000;
   0x492480003fffc00036db60005b6d80002492400036db6000092480000fffc00016db40000b6d80000492400016db40004924920;
   0x40040000200200000000000249240003fffe0005b6db0002db6c000124920007ffff000049240001effe0000b6d80000db6c000004900000fffc0012492490;
   0x248248000200000000000000209240003bfff0007bfff00035ffe000000000007bfff000049240000cffe0000dffc0000cffc000000000000dffc0000000000;
   0x5b65b60024824900924124004924900071fff80032db60005b6db0002092400032db6000092480000dffc00004db6000096d80000492400004db60024924924;
   0x2492490012492400492492002092400033fff000536db00021b6d0001249200073fff000049200001cfb0000096d80000cb240000049000009ed80002492490;
   0x2492490012492400000000002092400033ffe00033fdb00021fe60000000000033fcb0000082000018fb0000086d000000d200000001000008e000000400000;
   0x5b6db60024924900924924004125800061f6c00032db6000536d80002092c00032d920000024000000f6000000db0000006c00000092000000c900001b24920;
   0x24924900924924004924920020928000e3db8000416d8000619280000049000041e5800000120000005b0000002c00000012000000490000002400000d92580;
   0x2492490002492400000000000080000001fb000001e4800000920000000100000180000000020000005c00000024000000120000000000000004000025b6480;
   0x2db6db6c124924924924924800124800000b6800000db0000016d80000092000000c900000124000000b6000000d80000016c000000960000004800005b6db60;
   0x124924920924924824924924000920000005b0000006d00000092000000490000002400000196000002d80000016c00000196000002c80000012c000125b6c90;
   0x124924900800800800000000000020000007e0000002400000092000000400000000400000496000002580000012c00000496000002d80000012c00012492490;
   0x2db6db6c124924924924924800b24000005b6000006d800000b6c000005920000064800000b6c00000db6000006db00000b6c00000db6000006db00024924924;
   0x12492492492492482492492400592000006d800000b6c000005920000064800000b2400000db6000016db00000b6c00000db6000016db00000b6c00012592c92;
   0x12492492080080480400002000582000002db0000092400000592000006410000090000002596000012cb00000b2c00002596000012cb00000b2c00012792c90;
   0x2db6db6c124924924924924800b6580000db6c00016db00000b6d80000d92c00016c900005b6d00002db6000036db00005b6d00002db6000036db00024b25b24;
   0x12492492492492482492492400d92400006db00000b6d80000d92400006c900000b6480006db6000036db00005b6d00006db6000036db00005b6d00012592c90;
   0x124924920100800000000000004924800025fe400096490000492480006402400096010002596000012db00004b6d80002596000012db00004b6d80012492490;
   0x2db6db6c124924920924924800b6cb6000db6d80006db6c000b6db6000db2580006d96c001b6d80002db6c00036db40001b6d80002db6c00036db4002496c924;
   0x124924900924924804924920005b2480006db24000b6d920005b6480006d924000b6c92000db6c00016db60000b6d80000db6c00016db60000b6d800124b6490;
   0x2482490000000000002400000492480002592400092c92000492480002592400092c920004b6400002596000016c800004b6400002c960000124800024fe490;
   0x5b65b60024824900924124000b6db60005b6d80006db6c000b6db60005b6d80006db6c000365b00005b6c00002db6000036db0000596c00002cb6000496d920;
   0x24824800124124004924920005b2480006d924000b64920005b2480006d924000b6492000192c00002db6000036db0000196c00002cb60000325b00024b6490;
   0x2482480000400000000000000592480002492400012490000592480002492400012490000192400002fb2000012cb00001924000024b20000124b00024fe480;
   0x5924960024824800124124000b6db00005b6d80006db6c000b6db00005b6d80006db6c000325b00001b6c00002db6000036db0000196c00002cb6000496d920;
   0x5b2480006db6000036d900005b2480006d92000036c90000196c00002db6000036db00001b6c00002cb60000365b00004b6480;
   0x4b0000002dbe0000164900004b2400002d820000160100000b64000025b60000164800000b6400002496000016480000092400;
   0x36c800005b6c00002db6000036d800005b2400002d92000036d800001b6c00002db6000036d800001b6c00002db60000124800;
   0x90000002490000012480000092000002400000012000000092400002490000012480000092400002490000012480000000000].
Definition emoji_rows_72 : list N :=
  [0x0;
   0x920000005b0000006c800000b6000000490000006c80002d80000016c000001b0000002d80000016c000001b00000000000000000000000000000;
   0x1000000249000003e7800001b6c00002cb20000124800001b7c0001fc000001f8000002f8000001fc000001f8000002f80000000000000000000000000000;
   0xfe00000249200003e5d0000793c00003c9e000002410000793c00012c00000190000003480000012c00000190000003480000000000000000000000000000;
   0x36d80000492480013cbe8000b6590000592d800124b20000b6590002c80000012c00000190000002c80000012c000001900000004004000060160000900b00;
   0x7ffc00012492400192490002592c80012492400092490002592c80012c00000190000002c80000012c00000190000002c800000124124005b41b6002d82d80;
   0x7ffe000124124004924920024824800124124004924920024824800124000001900000034800000124000001900000034800000124000007fe5fe002482480;
   0xb6db0006db6db00b6cb6c005b65b6006db6db00b6cb6c005b65b6002c800000b2c00000594000002c800000324000005900000024924900b6db6d005b6db60;
   0xffef80012492400492492002492480012492400492492002492480012400000594000006480000012400000590000002480000092492400db6db6006db6db0;
   0x1ff2f800124924007ffffe007fffde0036db2c00000000007fffde00120000005940000034800000124000005900000004000000024924007ffffe002492490;
   0x1b64b00024924900fffb6e005b6db6006db6db00124924005b6d96002c800000b2c00000594000006c800000924000005900000024924900b6db6d80db6db60;
   0x24924800124924007f7dbe006db6db00b6db2c00492492007db24f0012400000594000006c80000012400000590000002c80000092492402db6db6416db6db0;
   0x20820800100004007b7dbe0074924e00724926000000000070100e0012000000594000003480000012400000190000000400000000090402ffffffc12492490;
   0x1965940024924800f6db6c005b6db6006db6db0012492400592496002c800000b2c00000594000006c800000124000005900000124924925b6db6d82db6db6c;
   0x24924800124924007b6db6006db6da00324924004924920064924a0016c000005b0000006d80000016c000004b0000002d80000092492482db6db6c36db6db6;
   0x34000800020104007bedf6006592cb001349a400010080002180c00007c000005f8000002f80000017c000000f8000000f80000080080083db7db7c12492492;
   0x192cb4002592c900b7dbed00db6db6006db6db0092c96400492592002d800000b6c000005b0000002d80000016c000004b00000124924925b6db6db6db6db6c;
   0x3c92580093c9a400dbedb6006db6db0093c9e400492592002592c90010000000580000002c00000010000000480000002400000492492486db6db6c36db6db6;
   0x3c36780002010000dbedf6002592c90092492400010080000080400010000000180000002400000010000000080000002400000010080406fb7dbfc12492492;
   0x1b2cb00024924900b6db6d00db6db6006db6db0092492400492492006c00000036000000580000006c000000360000005800000124924925b6db6db6db6db6c;
   0x3f92f800124924005b6db6006db6da00124924004924920024924800360000005a0000002c000000360000005a0000002c00000492492486db6db6c36db6db6;
   0x1f80f800000800001b7db40024b6480012492400002400000010000012000000090000002400000012000000090000002400000000080002db6db6c12492490;
   0x1b24b00024b6480036db6c001b6db4002db6d80012592400092c90002d800000360004001b0000002d800000360004001b00000124924901b6db6d82db65b6c;
   0xc365800124920001b6db0002db6d800124924000924900004924800160024001b0010002d800800168024001b0010002d80080092412400db65b6016da6db0;
   0x3c3e7800000100001beff00004924800124920000100800000800000124124000900900004824800124124000900900004824800000000005b67b6002482490;
   0x5b64b60005b6c80016db68000b6db0000db6d80012db2000096d90000db6d80016db6c001b6db4000db6d80016db6c001b6db40024824800b6c36c005b65b60;
   0x7d92de0002db20000bffb00005b6c00002db2000096d900004b6400016db6c000b6db0000db6d80016db6c000b6db0000db6d800124124005b65b6002d82d80;
   0x7d90fe000049000003ffa00004924000024920000024000000120000024924000924900004924800024924000924900004924800000000005b41b6002482480;
   0x5b25b6000092400002db6000036d800005b6c000024900000124800005b6d80006db6c000b6db40005b6d80006db6c000b6db40020000800120124004900920;
   0x7f92ff0000490000016d800000b6000000490000002400000092000006db6c00036db00005b6d80006db6c00036db00005b6d80000000000000000000000000;
   0x7f82fe0000000000002400000010000000000000000000000000000002492400012490000492480002492400012490000492480000000000000000000000000;
   0x5b24b60000000000000000000000000000000000000000000000000000924800024924000124900000924800024924000124900000000000000000000000000;
   0x0;
   0x2400000010000000000000002400000000000000000000002000000000000000000000000000000000000000000000002400000010000;
   0x2480000010000002ff0000017d80000012000002db0000016d80000012000002db0000016d80000012000000490000002400000010000002db0000016d800;
   0x9240000049000003ffc00001ffc00000ff0000036d800001b6c00000db0000036d800001b6c000005b000001248000009200000048000003ff800001ffc00;
   0x924000004900000ffff00007ffc00003ff80000ffff00007ffc00003ff80000ffff00007ffc00002ff00000000000000000000000000000ffff00007ffc00;
   0x1249000049240001ffff8000bfff00007ffc00016db60000b6db00005b6c00016db60000b6db00005b6c00012492000012480000492400016db68000b6db00;
   0x4924000024920001ffff8000ffff00007ffe0001b6db00005b6d00006db60001b6db00005b6d00006db60000924900004924000024920001ffff0000ffff00;
   0x4924000024920001ffff8000ffff0000ffff0001ffdf8000ffff0000ffff0001ffcf8000ffe700007ffe0000000000000000000000000001ffcf8000ffe700;
   0x9249000049248003ffb7c000ffdb0000ffff80016db6c000b6db0000db6d80016db6c000b6db0000db6d80012492400092490000492480016d96c000b6cb00;
   0x4924000124920001fedbc000fb6f0001ffff8001b6db0000db6d00016db68001b64b0000c92500016d968000924900004924000124920001964b8000c92500;
   0x4820000124020001fedb8000ff7f0001ffbfc001924b8000c9250001fd97800192498000c9240001e497800000000000082000000000000190018000c80100;
   0x9659000249248003edb6c000bedb0003db6d80016db6c000b6db0002db6d80016db6c00096db0002db6d80012cb2000096590002492480012c92c000965900;
   0x4934000124924001befb8000df7d80036db6c001bedb0000db7d80016db6c0019e590000593c80012492c0009e59000049340001249200019e590000493400;
   0x82000010c300001befb8000df7d00017ffec0019e590000492400012cb2c0019e590000492400012cb2400010180000082000000c30000190190000082000;
   0x92c90002492480016db68000b6db0002db6d80016db68000b6db0002db6d80016db68000b6db0002db6d80012492000092c90002492480012492800092c900;
   0x4924000124924001b6db00005b6c0003edb7c000b6db00005b6c00016db6c00092490000492400012492c00092490000492400012492000092490000492400;
   0x100820000f7db00005bec0001eff7c00092c9000049240001e593c0009249000049240001a493c00002400000000000000080000080410000000000;
   0x12480002492480006db6000036d80003db6d80006db6000036d80002db6d80006db6000036d80002db6d800024920000164800024924800024920000124800;
   0xb6400012592000036d800001fec0003edb7c00036d800001b6c00016db6c000124800000b64000165b6c000124800000b64000125920000124800000b6400;
   0x1200001258200001ff800001ff80001ffffc00016c8000009200001e59780001248000009200001e597800002400000012000000580000002400000010000;
   0x12480002492480000db0000016d80003fb6f80000db0000016d80002db6d800005b0000016c80002db6d800004900000124800024924800004900000124800;
   0x12000012492000006c000000b600001fdbf800006c000000b6000016db6800002400000092000016496800002400000012000012492000002400000012000;
   0x2000003c0000003e00001e583000002400000012000016482000002400000010000012482000000000000010000000000000000000000000000;
   0x1b64b0000db6d800165b6c001b6cb0000db6d800165b6c001b6cb0000db6d800164b6c001b64b0000db6d800164b6c001b64b0000db6d800164b6c001b64b00;
   0x7cb65e003e7f7c001b6cbc007cb65e003e7f7c001b6cbc007cb65e003e7f7c001b6cbc007cb65e003e7f7c001b6cbc007cb65e003e7f7c001b6cbc007cb65e0;
   0x7c365f003e497c007b6cbe007c365f003e497c007b6cbe007c365f003e497c007b6cbe007c365f003e497c007b6cbe007c365f003e497c007b6cbe007c365f0;
   0xdb64b6006d92db00b64b6d00db64b6006d92db00b64b6d00db64b6006d92db00b64b6d00db64b6006d92db00b64b6d00db64b6006d92db00b64b6d00db64b60;
   0x7d92df00fec97e00fb24be007d92df00fec97e00fb24be007d92df00fec97e00fb24be007d92df00fec97e00fb24be007d92df00fec97e00fb24be007d92df0;
   0xfd90ff007e497e00ff00bf00fd90ff007e497e00ff00bf00fd90ff007e497e00ff00bf00fd90ff007e497e00ff00bf00fd90ff007e497e00ff00bf00fd90ff0;
   0xdb25b6006d92db00b6c96d80db25b6006d92db00b6c96d80db25b6006d92db00b6c96d80db25b6006d92db00b6c96d80db25b6006d92db00b6c96d80db25b60;
   0x7d92ff00fecb7e00ff2dbe007d92ff00fecb7e00ff2dbe007d92ff00fecb7e00ff2dbe007d92ff00fecb7e00ff2dbe007d92ff00fecb7e00ff2dbe007d92ff0;
   0x2480490012412400490092002480490012412400490092002480490012412400490092002480490012412400490092002480490012412400490092002480490].
Definition emoji_rows_73 : list N :=
  [0x5800000000000000000000004800000000000000000000005800000024000000920000004900000024000000920000004900000000000;
   0xb2000000590000016d800000000000000800000124000000b60000005b000001fd800001b6c00002db0000016d800001b6c00002db0000016d80000010000;
   0x1fe000000ff000003fff00000000000000000000000000001fe000000ff800003fff00007ffc00007ffe0000bfff00007ffc00007ffe0000bfff0000092000;
   0xb6db00005b6c00016db6c000124800004924000024920000b6db00005b6c00016db6c001b6db0000db6d80016db6c001b6db0000db6d80016db6c000124800;
   0xdb6d00006db60001b6db4000492400002492000092490000ffff00007ffe0001ffffc002db6d80036db6c001b6db4002db6d80036db6c001b6db4000492400;
   0xffff80007ffe0001ffcfc000000000000000000000000000ffff8000ffff0001ffefc003ffffc003ffffc007ffffe003ffffc003ffffc007ffffe000492400;
   0x1b6db0000db6d80036db6c000924900004924800124924001b6db0000db6d80036db6c005b6db6006db6da0036db6c005b6db6006db6da0036db6c000924900;
   0x2db6d80016db68001b6cb6000492480002492000092490003ffef8001fff78001ffcfe006c825a0032c12c00592596006c825a0032c12c00592596000492480;
   0x3ff278001fdb30003fe4bc000000000000000000000000003ff878001fff38003ff0fe002000080010000400400002002000080010000400400002000490480;
   0x5b6db4000db6d80036db6c000924900004924800124924005b64b4000db2580036c92c004924920124924900924924804924920124924900924924800924900;
   0x2d925800164928005b2496002492480012492000092490003d9258001e4928007b249e000000000000000000000000000000000000000000000000002492480;
   0x3c9248001249200039249c00008200000041000001008000388208001841000078001e000000000000000000000000000000000000000000000000000082080;
   0x1b6db0002db6d80036db6c00096590000592c80012cb2400196594000d92c80032cb2c004924920024924900924924004924920024924900924924000965900;
   0x2593c80012cb200059e596000493480012cb200009e590003493480012c9200079a59e002492480012492400492492002492480012492400492492000492480;
   0x349248000249200039249c00008200000041000001008000308008000001000078001e002000000017ffe000092492000492480000000400000000000080000;
   0x1b6db00005b6c00036db6c00092490000492400012492400192490000492400032492c00492492006db6db0096db6c004b6db20024924900924924000924900;
   0xc92580002592000592c9600049240000249200009249000049248000249200079249e0024924900b6db6d80db6db6012492490092492400492492000492400;
   0x49240000249200039249c00001000000008000000240000001000000008000078001e000700c000b7dbed804b24d2012792c900020060000300c0000000000;
   0xb6db00005b6c80036db6c00092490000492480012492400092490000492480032492c004b2492016fb6db01b6db6d80db6db6012592c900924964800164800;
   0x2c92580012492c005964b6002c92580012492c00592496002c92580012492c005924960124924901b6db6d80db6c960124924900924964804b24920000b6400;
   0x24924800124924005924920024004800124024005820160024004800124024005820160000000000f0582f80482412002412090000000000000000000012000;
   0x5b6db6016db6db00b6db6c805b24b6006d92db00b6496c005b24b6006c925b00b6496c00492c92016cb65b00b2592d80592c920024b64900925924000024000;
   0x92592c92496c964824b25b2412592c92496c964824b25b2412592c924964964824b25b24024924800125b2c00192c900024b6480012592400092c90000012000;
   0x124924900924924824b65924004924000024920000b259000049240000249200003258000000000001eff7000092490000492480000080000000000000c02780;
   0x5b6db6016db6db00b6db6c804b6db2002db6d900b6db6c004b6db20025b6c90096db6400092590002db6d80016db64000b6db0002492480012c924005b6cb60;
   0x6db6db00b6db6c005b6db6006db6db00b6db6c005b6db6006db6db00b6db6c005b6db60004b6400006db60000b6db00005b6c00002db2000016d80006db6de0;
   0x24924800964924004b24b20024924800964924004b24b20024924800964924004b24b20000b6000003ffe000016d800000b6400000590000002c00007c825f0;
   0x5b6db6006db6db00b6db6c005b6db6006db6db00b6db6c005b6db6006db6db00b6db6c000124800001b6c00002db0000016d80000092400002490000db2cb60;
   0x6db6db00b6db6c005b6db6006db6db00b6db6c005b6db6006db6db00b6db6c005b6db6000092000000db0000016c80000092000000490000002400007d92df0;
   0x24924900964924004b24b20024924900964924004b24b20024924900964924004b24b200000000000008000000240000001000000000000000000000fd90ff0;
   0xdb6db6006db6db00b6db6d00db6db6006db6db00b6db6d00db6db6006db6db00b6db6d00000000000000000000000000000000000000000000000000db2db60;
   0x2492490092492400492492002492490092492400492492002492490092492400492492000000000000000000000000000000000000000000000000002482490;
   0x10000000000000000000000010000;
   0x100020000800000000000000100020000800000000000920000004900000124800000b60000005b000003fd800000b60000005b0000016d800;
   0x400010002000180090002800400010002000180090002800400010002490000012480000492400003ff000001ff800007fff80002db0000016d800005b6d80;
   0xf000100120000800b0002000f000100120000800b0002000f00010002490000012480000492480007ffe00003ffc0000ffff80007ffe00003ffc0000ffff80;
   0xb00028025000300120005800b00028025000300120005800b0002800492400002492000092490000ffff80007ffe0001ffffc000db6d80006db60001b6db40;
   0x3000200040001000200000003000200040001000200000003001249200009249000049248001ffff8000ffff0003ffffc0016db68000b6db0002db6d80;
   0x8003000000040000000200000003000000040000000200000003001249200009249000049248001ffffc000ffff0003ffffc001ffff8000ffff0003ffefc0;
   0x10006000080080000400400010002000080080000000400010002002492480012492000092492003ffef8001ffff8007ffdfe002db6d80016db68005b6db60;
   0x8008000000040001001000008008000000000000000000008008001249240009249000249248003fff7c001fffb0003ffefc0036db6c001b6db0002db6d80;
   0x8008000000000000000000000000000000000000000000000000001240240009201000248008003ffb7c001ffff8003ff6fc003ed97c000f7cb0003ff25c0;
   0x60b0000090480000582000002090000090480000482000002090002492480012492000492492003db6d8001edb78007b6dbe002db6d80016db68005b6db60;
   0x38c00000592000002c90000038c00000592000002c80000038c0001249240009249000249248003edb7c001b6db0003db6dc0036db6c001b6db0002db6d80;
   0x3fc00000596000002d8000003fc00000596000002d8000003fc00010c1000009818000208308003fdbfc001befb8003df7dc0032cb2c0009e590003d93dc0;
   0x2da0000036c000001b6000002da0000036c000001b6000002da0002592c80012cb2000496592003db7d80016db6c007bedbe002db6d80016db6c005b6db60;
   0x1fc000001b4000002d8000001fc000001b4000002d8000001fc00012492000092490002492480036db68000b6db0003db6dc0016db68000b6db0002db6d80;
   0x1fc000000b0000002d8000001fc000000b0000002d8000001fc0001000000000000000200008001edb78000b6db0003db6dc0012492800092490003c925c0;
   0x2d800000360000005b0000002d800000360000005b0000002d80000492480002592000492c92000db6d80006db60007b6dbe000db6d80006db60005b6db60;
   0x360000005b0000002d000000360000005b0000002d0000003600000249200001248000249248001edb60000b6db0003db6dc0016db60000b6db0003db6d80;
   0xbe0000004800000024000000be0000004800000024000000be000000000000000000002400080006db60000b6db0003db6dc0002492000092490003c925c0;
   0xb6c000025b6000012da0000096c000025b6000012da0000096c00002c92580036492c005964b6002db6d80036db6c005b6db6002db6d80036db6c005b6db60;
   0x25b4000092d80000416c000021b4000012d80000416c000021b4000036492c005924b6002c92580036db6c005b6db6002db6d80036db6c005b6db6002db6d80;
   0xb80000004800000024000000b80000004800000024000000b8000012002400490092002400480092df2400597f96006dbedb0092492400492492006c925b0;
   0x12c00000090000000580000002c00000090000000580000002c00092592c92496cb64924b65b24b6db6db65b6db6db6db6db6cb6db6db65b6db6db6db6db6c;
   0x94000000480000010c00000094000000480000010c00000094000096cb64824b6db24125b6c905b6db6d82db6db6c36db6db65b6db6d82db6db6c16db6db2;
   0x4800000000800000004000000000000000800000004000004000000124924004924b20024b64800b6492c005924b6006c925b00964924004924b20024b6490;
   0xb64000004820000024000000124000004820000064000000b6400006db6db00b6db6c005b6db6006db6db00b6db6c005b6db6006db6db00b6db6c005b6db60;
   0x582000002400000010000000482000006c000000360000007820000b6db6c005b6db6006db6db00b6db6c005b6db6006db6db00b6db6c005b6db6006db6db0;
   0x7d2000000000000000000000000000007c000000380000007f00000964924004924b2002c925900964924004924b2002c925900964924004924b2002c92590;
   0x36c00000082000000010000012400000582000002010000036c00006db6db00b6db6d00db6db6006db6db00b6db6d00db6db6006db6db00b6db6d00db6db60;
   0x120000000000000000000000020000000000000000000000120000b6db6c005b6db6006db6db00b6db6c005b6db6006db6db00b6db6c005b6db6006db6db0;
   0x20000000000000000000000000000000000000000000000000000964924004924b2002c925900964924004924b2002c925900964924004924b2002c92590;
   0x24924900924924004924920024924900924924004924920024924900924924004924920].
Definition emoji_rows_74 : list N :=
  [0x80000000400000010000000080000000400000000000000000000000000000000000000000000000000000000000000000000000000000000000000000000;
   0x3c0000003c0000003e0000003c0000003c00000000000000000000000000000000000000000000000000000000000000000000000000000000000000000000;
   0x364000005b2000006c800000364000005b20000120001800b00028005000100120001800b00028005000100120001800b00028005000100120001800b00028;
   0x5b2000006c800000364000005b2000006c800001b0002802d000100160001801b0002802d000100160001801b0002802d000100160001801b0002802d00010;
   0x7f0000003e0000003e0000007f0000003e00000010002000000010002000080010002000100010003000080010002000100010002000080010002000000010;
   0x364000005b2000002db0000036d800005b60000020005800100060000800300020005800300060001800300020005800100060001800300020005800100060;
   0x92000000c9000001ff800001ffc00002ff00000100020000800300000004000100060001800b00028004000100060001800b0000000400010006000080030;
   0x1000000008003ffe20001ffc10003ffe080000000000000000000000400010006000180080000800c00010002000080080000000400010000000080080;
   0x12486c024924b6006db6580036da6c025b6cb6000400400010010000080080000c00c00016014000180180000c00c00016014000180180000c00c000100100;
   0x924b60024925804ffdf6c007ffeb6007ffe5800000100000800800004000000160100000a0180000c02c00016010000080180000c02800012010000080080;
   0x120000004800ffcfa4007fe612007fffc800020000000100000000800000060300000b0580000682000002010000090480000482000002010000090400;
   0x2412486c104924b6086d96d82432cb6c10db6db6000596000002d90000032c00000596000006db00000b2d00000596000006db00000b2c00000596000006db00;
   0x100924120824925824f24b2c10492412086497d80002d80000036c000007fe000002da0000036c000007fe000002da0000036c000007fe000002da0000036c00;
   0x100c30004804100024c20900104c300048e003800002d80000016c000003fe000002d80000016c000003fe000002d80000016c000003fe000002d80000016c00;
   0x6c165904b64b24825864b2086c165904b6cb25820001b6000002d80000036c000001b6000002d80000036c000001b6000002d80000036c000001b6000002d800;
   0xb64924025824b2006c965900b609240259e4b3c00002d80000016c000001b0000002d80000016c000001b0000002d80000016c000001b0000002d80000016c00;
   0x9201000048041000244001001201000048e4138000024000000120000001f00000024000000120000001f00000024000000120000001f0000002400000012000;
   0x6c12c800b6492480586492006c12480036c925800005b0000002d800000360000005b0000002d800000360000005b0000002d800000360000005b0000002d800;
   0x1009240008249200201248001009240009e493800002c000000b6000000580000002c000000b6000000580000012c000000b6000000580000002c000000b6000;
   0x1200000018000000240000001200000e183800012400000092000002f800000b2400002c92000017f80000092400000492000012f80000092400000492000;
   0x2492c800124964804905b0000492c80012d96580092d80000496c000125b40000b6d80000db6c00016db40000b2d80000596c000165b4000092d80000496c000;
   0x12012000492492002482400012012000497c97800002c000000b0000000580000406c000100b0000080580000406c000100b0000080580000002c000100b0000;
   0x20000100800000000000000000000060070000024000000100000001800000064000000b0000000580000002400000090000000580000002400000010000;
   0x592492002c92490032492480592492002c92590002480000012c00000096000002c80000036c00000196000002c80000016c00000196000002c80000012c000;
   0x2492492036c964805b2492402492492036c96480010400000080000002480000036400000586000006c80000036400000586000006c80000010400000082000;
   0x2492400036c96000092480002492400036c960000000000000800000024000000fe4000007c6000007c000000f6400000482000006c00000092400000482000;
   0x5b6db2002db6d80036db6c005b6db2002db6d80002400000012400000482000007c300000be4000007e6000006c30000036400000582000006c000000364000;
   0x2492480036db6c005b6db6002492480036db6c0001000000008200000240000003c400000782000007d20000034400000582000006c20000034400000582000;
   0x2492480036db6c000924b0002492480036db6c00010000000000000000400000018000000002000003fa0000010000000002000002f80000010000000002000;
   0x5b6db6002db6d80036db6c005b6db6002db6d800000100000000000000120000000300000000000000320000000300000000000000320000000100000000000;
   0x2492480036db6c005b6db6002492480036db6c00000000000002000000000000000000000002000000030000000000000002000000010000000000000002000;
   0x400000012492400080010000400000012492400000000000000000000000000000000000000000000000000000000000000000000000000000000000000000;
   0x12000000180000002c00000012000000180000002c00000012000000180000002c00000012000000180000002c000000120000;
   0x4000000000000000000000005b0000002c000000360000005b0000002c000000360000005b0000002c000000360000005b0000002c000000360000005b0000;
   0x4000000020020000f00000007f0000003e0000003e0000007f0000003e0000003e0000007f0000003e0000003e0000007f0000003e0000003e0000007f0000;
   0x900900124804904160000000364000005b2000006c900000364000005b2000006c900000364000005b2000006c900000364000005b2000006c900000364000;
   0x4004800920024020f00000005b0000006c000000360000005b0000006c800000364000005b0000006c800000360000005b0000006c800000360000005f0000;
   0x800000000000f00000001d0000003c8000003e4000001fe000003ff000003fe000001fe000003fb000003fc000001f6000003f9000003ec000001c0000;
   0x900900024004804160000000164800001b2410002c90000037f800001ffc10002ff4000016d800001b6c10002db0000016d800001b6c10002db00000124800;
   0x2400480010002402090000000092410000490580012482c007ffe10003ffe58003ffe2c005b6c10002db6580016d82c005b6c10002db6580016d82c00092410;
   0x20000800b00024000900000004924100024924800124824007fff10003ffe48003fff24007fff10003ffe48003fff24007ffe10003ffe48003fff2400000010;
   0xd90032016400590496c12480492496c024924b60824925804ffff6c027ffeb6087ffed804b6db6c025b6cb6086db65804b6db6c025b6cb6086db6580492496c;
   0x124005901b2002c820901900004924b6082492580412496c00ffefb6087ff65804ffff6c00db6db6082db65804b6db6c005b6db6082db65804b6db6c004924b6;
   0x120004801b0083c80090180000490492002082480012492400ffef92003ff64800ffffa4007f2792003d964800ffcf24007b27920024924800fecf2400000012;
   0x6d90496cb6482594016490002492492c104924360824925824f6db2c107b6e32097db7d824b6db2c105b6c36096db6d824b6db2c105b6c36096db6d82492492c;
   0x92480494582410480090000030492482582492082c92490430ff7d82586db6082cf6db8430db6d82586db6082cb6db0430c92582582cb2082cb24b0430492402;
   0x100000125820000c00900000104c30004804100024860100107f7f80486fbe0024fefb80104f3d00482cb20024f65b80104f35004824920024d65980100c3000;
   0x6c12412cb60100b6016000006c965904b64924025824b2006cf6db04b65b6d0259edb7c06cb6db04b65b6c02596db6c06cb6db04b65b6c02596db6c06c965904;
   0x120000b65800025a00900000b6492402582492006c924900b65b6d02582db6006cf6db80b65b6d02582db6006cb6db00b6492502582592006c924900b6492402;
   0x120000b2180000fc00900000100100004800800024804100107bee00482df60024f7db80104924004824920024f2cb80104924004804900024d2498010010000;
   0x2c00016c160000b6012400002c12480030092400582492002c36db00301b6c0059edb7c02c36db00301b6c00596db6c02c36db00301b6c00596db6c02c124800;
   0x120004900900024800900000000924000004b0000092c900001b6c00000fb40000f6df80001b6c00000db00000b6db00000b24000005b00000b2cb0000092400;
   0x80002000000000000012000000080000092c900120ffc00490ff0000cffff80120b60000905900004f2cf00000920000804900004f2cb0000012000;
   0x480012012000090010400002482480092092000492492006d86d800b68b60005b7dbf806d86d800b68b60005b6db6802d82c800b60b60005b6db68024824800;
   0x100000100900020800020000020120000900800004924900168360000b05b0002df6df00168360000b05b00025b2cb00120120000904900004b24b0002012000;
   0x1000000000000000000000000200000001000000008000000203e0100107f0000593e12002012010010490000482412002012010010480000082410002010000;
   0x20800104120000900104000005b65b2402d92c92036c964905b6db6c02db6db6036db6db05b6db6c02db6db6036db6db05b6db6402db6db2036db6d905b65b24;
   0x32000580590002880002000002d92c900164924805b65b2002db6db00165b2d805b6db6c02db6db0016592d805b6db6402db2c900164924805b65b2402d92c90;
   0x100005800800078000000000024924800124924001b6db00024924800124924001b6db60024924800124924001b6db20024924800124924001b6db2002492480;
   0x800904020004120104000005b6db6002db6d80036db6c005b6db6002db6d80036db6c005b6db6002db6d80036db6c005b6db6002db6d80036db6c005b6db60;
   0x24000160100001a0000000002db6d800164924005b6db6002db6d800164924005b6db6002db6d800164924005b6db6002db6d800164924005b6db6002db6d80;
   0x24000100160001804020000024924800124924001b6db40024924800124924001b6db40024924800124924001b6db40024924800124924001b6db4002492480;
   0x90002402c000300904800005b6db6002db6d80036db6c005b6db6002db6d80036db6c005b6db6002db6d80036db6c005b6db6002db6d80036db6c005b6db60;
   0x2492480012492400092490002492480012492400092490002492480012492400092490002492480012492400092490002492480].
Definition emoji_rows_75 : list N :=
  [0x0;
   0x24020000120100000804800024020000120100000804800024020000120100000804800024020000120100000804800024020000120100000804800000800000;
   0x120b0000480580002406c000120b0000480580002406c000120b0000080580002406c000120b0000080580002406c000120b0000080580002406c00000400480;
   0x100b0000080580002407c00010090000080480002406400010090000080480002406400010090000080480002406400010080000080400002406400000400480;
   0x2416c000320b6000480d80002416c000320b6000480d80002416c000120b6000080d80002416400012092000080c80002412400012090000080c800000900900;
   0x300b6000180d80002016c000100b6000080d80002016c00010090000080c80002012400010090000000c80000012400010090000000c80000012400000400480;
   0x100b400010078000201ec0001009000000048000201a400010090000000480000012400000080000000400000010000000080000000000000010000000400000;
   0x2006c000300b4000180d80002006c000300b4000180d80002006c000100b0000180d80002002400010090000000c80002002400010090000000c800005800120;
   0x30030000180580002006800010030000180580002006000010010000000480002002000010010000000480000002000010010000000480000002000006400090;
   0x10030000182580002017000010010000002400002012000010010000000400000002000000010000000000000002000000010000000000000002000002000080;
   0x2db6c80036db60001b6db0002db6c80036db60001b6db00024b6c800125b2000196db00024b2480012492000092cb00024b2480012492000092cb0002d900120;
   0x36db6c001b6db6002db6d80016db6c001b6db2002db6d80012596c00092490002496480012596c00092490000496480012596c00092490000492480016400490;
   0x16c924800b6db6000dbffb0012492400092492000496f90012492400092492000496690000492400000000000016600000492400000000000016600012002480;
   0x4b6db6c025b6db6012db6db04b6db6c025b6db6002db6db04b6db24025b6592002db2c900b6d92400092492002db2490036d92400092492002db2496c900824;
   0x1b65b6002db2db0016d16c001b60b6002db2db0016d16c001b6092002492490016d124001b6092000490480016d124001b6092000490480016d124b0490012;
   0x92002000db008001ff0040009200200049000001ff0040009200200049000001ff0000009200000000000001ff0000009200000000000001ff00010000012;
   0x16c000001b6000000db0000016c000001b6000000db0000016c000000b6000000db0000016c00000092000000db0000016c00000092000000db0002c00012c;
   0xb6000000db0000016c000000b6000000db0000016c000000b6000000490000016c000000b6000000490000016c000000b6000000480000016c00016000092;
   0x92000000db000001fc0000009200000049000001fc0000009200000048000001fc0000009200000000000001fc0000009200000000000001fc00012000090;
   0x16c000000b6000000da0000016c000000b6000000da0000016c000000b6000000da0000016c00000092000000da0000016c00000092000000da0000c80016c;
   0x4b6000002db0000016c800004b6000002d90000016c800004b6000002490000016c800004b2000002490000016c800004b2000002490000016c80002000010;
   0x12492492492492482492492412492492492492482492492412492492492492482492492412492492492492482492492412492492492492482492492400000000;
   0x6db6db6cb6db6db65b6db6db6db6db6cb6db6db65b6db6db6db6db6cb6db6db65b6db6db6db6db6cb6db6db65b6db6db6db6db6cb6db6db65b6db6db24800120;
   0x92492492492492492492492492492492492492492492492492492492492492492492492492492492492492492492492492492492492492492492492410000010;
   0x12492492492492482492492412492492492492482492492412492492492492482492492412492492492492482492492412492492492492482492492410000000;
   0x6db6db6cb6db6db65b6db6db6db6db6cb6db6db65b6db6db6db6db6cb6db6db65b6db6db6db6db6cb6db6db65b6db6db6db6db6cb6db6db65b6db6db2c800304;
   0x92492492492492492492492492492492492492492492492492492492492492492492492492492492492492492492492492492492492492492492492412000580;
   0x12492492492492482492492412492492492492482492492412492492492492482492492412492492492492482492492412492492492492482492492400000000;
   0x6db6db6cb6db6db65b6db6db6db6db6cb6db6db65b6db6db6db6db6cb6db6db65b6db6db6db6db6cb6db6db65b6db6db6db6db6cb6db6db65b6db6db0180002c;
   0x92492492492492492492492492492492492492492492492492492492492492492492492492492492492492492492492492492492492492492492492402c00012;
   0x12492492492492482492492412492492492492482492492412492492492492482492492412492492492492482492492412492492492492482492492400400010;
   0x24924924924924924924924924924924924924924924924924924924924924924924924924924924924924924924924924924924924924924924924900000000;
   0x2000000000000000000000002000000000000000000000000000000000000000000000002000000000000000000000000000000000000;
   0x2030000010780000007800002030000010580000007800002030000010000000000000002000000010780000007c00002030000080000000400000010000000;
   0x5b7c000068b40000b0d80000596c000068b40000b0d80000596c000028900000304800005924000028b6000030d80000596c000120b0000480580002406c000;
   0x6ff4000030d80000586c00006db4000030580000586400006db4000030480000582400006090000030d80000586400002df4000080c80002406400012090000;
   0x27f00000104800004064000024f0000010480000402400002490000010000000400000002000000010400000402000002480000080c00002400000010080000;
   0x406c000020b0000020580000406c000020b0000000580000406c00002010000000480000402400002090000000480000406400010092000080c800020124000;
   0x2030000000580000402400002030000000080000402000002010000000080000402000002010000000000000002000002010000000c80002012400010090000;
   0x2010000000000000402000002010000000000000002000002010000000000000000000000000000000000000000000000000000000400000000000000080000;
   0x5b6c00002db2000036d900005b6c000025b2000032d90000496c000025b2000012d90000496c00002592000012c90000496c000100100000804800020060000;
   0x2db6000016db00005b6d80002db6000012db0000096d800025b6000012db0000096c800025b6000012db0000096c000025b6000002480002002000010090000;
   0xffc000004900000024900000fe4000004900000024800000fe4000004900000024000000fe0000004900000024000000fe000002490000000000000082000;
   0x6cb6c000b6db20005b6d80006cb64000b64920005b2c80006c924000b64900005b2480006c924000b64900005b2480006c924125b6c000924920024964800;
   0x36000000582000006c10000036000000580000006c00000036000000580000006c00000036000000580000006c00000036000092db20004924900124b6400;
   0x3c00000048000000240000003c00000048000000240000003c00000048000000240000003c00000048000000240000003c0000024900000000000000f6000;
   0x6c00000036000000580000006c00000036000000580000006c00000036000000580000006c00000036000000580000006c000001b6092002492490016d924;
   0x36000000580000006c00000036000000580000006c00000036000000580000006c00000036000000580000006c00000036000000db00000124000001b6000;
   0x3e00000048000000240000003e00000048000000240000003e00000048000000240000003e00000048000000240000003e0000004900000000000000fe000;
   0x6c000000b6000000db0000006c000000b6000000db0000006c000000b6000000db0000006c000000b6000000db0000006c000001b6000000490000016c000;
   0xfe0000005b0000006d000000fe0000005b0000006d000000fe0000005b0000006d000000fe0000005b0000006d000000fe000000d800000024000000b6000;
   0xff0000004b00000067000000ff0000004b000001e7000000ff0000004b000001e7000000ff0000004b000001e7000000ff0000004800000000000000fe000;
   0x165800000b6000000cb00000165800000b6000000cb00000165800000b6000000cb00000165800000b6000000cb00000165800005b64000024b0000096c800;
   0x82000000c300000165800000a2000000410000016080000082000000410000012080000082000000410000002080000082000492492482492492412492492;
   0x182000000410000010080000082000000410000010080000082000000000000000000000000000000000000000000000000000492492482492492412492492;
   0xb0580000586000006cb00000305800005820000024b00000104800004820000020900000104800004820000020100000104000b6db6db65b6db6db6db6db6c;
   0xc160000060800000b0c00000416000002080000090400000402000002080000080400000400000002080000080400000400000492492492492492492492492;
   0xc10000010080000080000000410000010000000080000000010000000000000000000000000000000000000000000000000000492492482492492412492492;
   0x5860000020300000304000005820000020100000104000004820000020100000104000004820000020000000104000004020000b6db6db65b6db6db6db6db6c;
   0x2000000000400000402000002000000000400000402000002000000000400000402000002000000000400000402000002000000492492492492492492492492;
   0x2000000000400000402000002000000000400000402000002000000000400000402000002000000000400000402000002000000492492482492492412492492;
   0x4060000060800000804000004060000060800000804000004060000060800000804000004060000060800000804000004060000b6db6db65b6db6db6db6db6c;
   0x400000000000000000000000400000000000000000000000400000000000000000000000400000000000000492492492492492492492492;
   0x0].
Definition emoji_rows_76 : list N :=
  [0x124800924004924920024924800124000000000000800000000000000000000100000000004000000000000000000000020000000000000000800000020000;
   0xdb6c005b6002482d80012436c00492000000000002400000000000080000400182400000012400400000000002000002010000010480000407c000020f8000;
   0x3fffe00092002482490092412400490000000000002400000000000000000000090080000012400400000000182400003010000010480000587c000060fc000;
   0x5b6db0016d80db01b6016d82db00b6c000000000005b0000000000006492490096492400016db00b0000000030480000582400006c900000b0f80000586c000;
   0x6db6d000b6c12400db0092016d824900124924000024800000000004824924024b0002000490400400000000402400002090000032480000406c000060f0000;
   0x7ffff000124124004900920024824800fffffe00002480000000000080002402412000000480400400000000000000000000000000400000406c00002070000;
   0xdb6db0002db6d80036cb6c005b65b6016db6db0000db00000924900104924905b2d924801b60b0090092480000480000402400002010000020580000402c000;
   0x6db6d80016d924001b6490002db2480192000d80012480002492480082492402582c00402d80400402db6c00002000002010000000000000402000002030000;
   0x7ffffe00124920000924900004924807900004c0012480000000000082410000580c00002480400407db6f80012400000092000000c80000492400002492000;
   0xdb6db6000db6d80016db60000b6db0032492496002db40004924920304924904964b24905b60b00b0d924b4012db0000496d800025b6000036db00005b6d800;
   0x6db6df0006c920000b64800005924004920004a00124800020000800124924800b2580006db0400416492580016c800000b6400000db0000016d900004b6c80;
   0x7fffff00024900000124800004924006100000e00124800020000800024124000161800024f04004124904c00024000000120000007c00000024b64000125b0;
   0xdb6db60001b6c00002490000016d80032492496000db00004924960024924904925964b05b60b0092c92496000582000006c10000036000000582480006c120;
   0x6db6df00004900000124800000920004924004a0002480002492480012492486402c82406db04004324924b0002c00000036000000580000002c00000036000;
   0x7fffff00004900000000000000920006100000e0002400002000080012402406400c026025f04004324920b0002400000012000000780000002400000012000;
   0xdb6db60005b6c00002490000012480032492496000580000492496002490490db2492db05b60900b2c96c96000580000006c00000036000000580000006c000;
   0x6db6da0002592000012c800004924004924924a0002400002492480012402407c92496c06da24804324b24a0002c000000b6000000580000002c000000b6000;
   0x7ffffc00027f2000002c000004924006100004e0002400002480480002400007f9249fe0278048041a5be480002c000000b60000007e0000002c000000b6000;
   0x5b6db6000db6d80012db2000092d900324924960001800005b24b6000480080db6db6db05b04900b2cb6c960005b0000006d000000b60000005b0000006d000;
   0x6db6d80012db20000964900004b64804924924a0002400002c92d80002000007ff7fbfc02d82480416df6d80006d000000b6000000ff0000006d000000b6000;
   0x7ffff800127920000060000004924806100004e0002400002492480000000007ffffffe02580480403dffc800064000000c6000000e700000065000000c7000;
   0x5b6db0002db6d80012592000092c900320024960001800005b6db6000000080db6db6db01b04900b05b6d900004100000164800000a2000000c300000165800;
   0x6db6c00012d920000924900004b24804924924a0002400002c92d80002000407ff7fbfc001824804000f0000010080000082000000410000014580000182800;
   0x2492400012e920000024000004924806100004e0002400002492480000000007ffffffe00080000400430000000000000000000000000000030400000586000;
   0x592480000db6d80012592000092c900320024960001800001b6db40004000805b6db6db00005900b00b40000020800000904000004120000160900000b0c000;
   0x2492400012db2000092c900004b24804924924a00024000025b6c80002000407ff7fbfc00002000480fc0000080000000410000010000000182000000c10000;
   0x20000000027f2000016c000004924006924924e0002400002492480000000003ffffffc000020004807c0000000000000000000000000000002000002030000;
   0x5924800005b6c00002db2000092c900324924960001800001b6db00004000901b6db6d800005800360b60000004000004020000020000000204000004020000;
   0x24924000024920000124800004924004000000a00024000024924800020024805ffff6000002000092400000402000002000000000400000402000002000000;
   0x20000000024900000000000000920004000000000024000004924000000000000bff90000002000092400000400000004000000000400000400000004000000;
   0x5924800000b6000000490000012480000000000000180000000000002480000012db6000000580002d800000004000004000000060000000004000004000000;
   0x400000000080000000000000010000000000000000000000000000000000000002400000002000012000000000000000000000000000000000000000000000;
   0x400000000000000000000000000000000000000000000000000000000000000000000000000000000000000000000000000000000000000;
   0x24000000000000b05b00000000000000000004820000000000000000000300900000000000000004b24000920000000124800025800000000000000124800;
   0x12000000000003cbff800000000000900000024800000000004000000004024800000020000000124920004820000004924000964000000000000000b6400;
   0x120800030ffff0000000000090000002480000000002480000000402480000012480000012492400000000000000000096400000036d800000b6400;
   0x12480006db6000516db6c000000000124000005b60000000005b60000001905b60000024b6000016d92490092490000492492016ca0000006db6000496d924;
   0x92400096d900065b24be0004000004920000024900000000124900000025824b00000324920000b2492400410480002c925900b2c000000b6db00124b6490;
   0x3ff9000679209e000402080082000000490000000012490000002082490000012492000092492400000000003c00180497c000000124f00000b6000;
   0x92490016db65b0cb2492d821824b0012c800000b6d80000006db6c00002cb05b6c00006492580036d92490010492000d924960b6db0000000006002496c924;
   0x4924000b6df2486c924978124b2480092400002492c000000924920000324824900000b24924004924924804800100164924b04b6c000000000b0012492490;
   0x92fffc83c924938125904900924000024924000000924920000804824920000320024800024924800000000004004901b64000000000f0000012000;
   0x924900125b6db0196d92582db64b6c124b00005b6db0000096db6c000164961b6c00006492d960000924900824920025b24b24b6d90000012496402492c924;
   0x492480092fbef83cb6492c12f92db0012480000492c800024b2492000092582c920000324bfca0000492480092490012c925925b64800001b6db4012492490;
   0x9249fe03c92492c12596ff00124800000924800024924920001905804920000320ffe900004924800924900024000804fa0800007ffffe002010000;
   0x92490012492db25b6db2da2d96db6c02492000016db6002db6db6c000325b00b6d80006c96db2000012db4092492402492492416db20001b6db6d82492c924;
   0x2492480492492487db6492c16496d920024900000924900124925920004b2c004b24000364bef90000496580492492012c92c92092490002db6db6c12492490;
   0x2000000092492483492492c1209249200249000009249001249249200043300049248003643ff90000002480492492003f80d80012490002db6db6c02002000;
   0x4924900124924925b6cb2da24b6c92c00492400006db6c02db6db6c00596580036db2002d92db2c00010db64b2492c825b24b64005960005b6db6db24924924;
   0x2492480492492487db2492c325b2496000492000012cb00124924b00064b600019259001649ff96000002482492492412492492000490006db6db6c12492490;
   0x2000000092492483c92492c12592490000482000012492012492490012496000092490016487f92000002482492492402400000000490002492492402002000;
   0x492490012c92490596496582db6496c00092c80002db6c06db6db6402cb2c00016db6c00d925b24000005b0596db6c825b2496400036c005b6db6db25924964;
   0x2492480092492483c92492c164924b0000092400016592012492490012cb60000b2492016c92496000002482492492412d92d92000094002492492413c92d90;
   0x2000000092492483c92493c024924800000924000024920124924800320b8000012492006c90016000002482492492400400580000016002492492403ffff80;
   0x1924900124964901b2db25804b6db20000124b00005b6d86db6db60025b6000002db6d805b6492c000005b01b2492d82d924924004005805b6db6db25b6db64;
   0x492480092492400c92497c02492490000012480000492416492480092580000016492402d92494000002d804924920164924b0002002806db6db6c025fec80;
   0x400080092492400f9249f600000000000012480000492412492400082600000002492402db2490000002400492492002c000b0012000c02db6db6c000f6000;
   0x924900024924800b6592c30492492000002490000036d82db6d80032cb00000005b6d801b6db6c000005b0016db64005924b6000d800b05b6db6d800965900;
   0x4924000124920005b24be6024924800000024800000b2412492000492c00000002c92400db6db0000002400012480002c92490012000502db6db64005f7c80;
   0x4804000024920001f65f8600000000000002480000012402490000412c000000004924005b6db00000024000000000000000000020001800000000001c3880;
   0x16480000492400016db6180092490000000490000002db00900000165800000000b6d80036db60000005800000000000924900004000160000000000965900;
   0x9200000048000003ffb3c000924000000004800000024000000000960000000000b24000b6d800000020000000000004924000000000a0000000000492480;
   0x241f000000000000000000000000400000000002000000000012000016c00000002000000000000000000000000030000000000000000;
   0xc000000000000000000000000000000000000000000000004000004800000004000000000000024000000000020000000000124800].
Definition emoji_rows_77 : list N :=
  [0x12490000002000000000000000000000000000000000000000000000;
   0x8000000000001000000000000000001c000036db6000002000000000000000000000000000000480000000000000;
   0x900004b60000000b6c02400000000000000002c000024925800005900000000000000000000000b64001b64000000924900;
   0x2480006db2000002c9401200000000000000001e000010002000012480000000000000000000002db6002490000000492480;
   0x1200000000000000000000001248000259600000600600200000000000000000e000010000c00012490000000000000092000012492402492000000000000;
   0x12480000000000016cb2400016db2002db6d80002c924000b00000000124000005800004000800025924800020800000b6db0002db6da05b6c800000924900;
   0x924000000000004924920004924800b6db6c000b04860004120000005b6000007800006000490012c92400012480002d92c800b6c92402496000002400480;
   0x400000000090000492492000492480092d96c000c0482000600000003fffc00003c00002000490092492400010080002482480092492402492000000400080;
   0x924900024b6c800b6cb6d80592492016db6d800125b6d804b2492032db6db01801800025924b6c125b24900124924005b25b6016db6d905b6d800001924900;
   0x24924800127ffc024864124024924800b6db6c00592496c0249248049fffff83c00c00012c92490092492400492492002592d901b64b2482592400000492480;
   0x1001e4ffc02402400412492480096db6c0061249ec00080000097ffff83e004000004004900924924800000020024924900924b2482492400000400080;
   0x2492492416c96db0580cb0582492c96016db6d800b6db2d80492492006db6db60b00b00004924b6c124b2490092492480db6db6036db64b45b6db00001924900;
   0x124924920fe4fff824024024124924901b6db6c00c924b6c024000900b2d92ff07805800124924900925924824924924025b6d901b6496c82cb2c80000492480;
   0x120fe4fff824024024124924904b2db60018924364020800000fe4927f0380080000400490092492480092090002492490092482c80492480000400080;
   0x2492492c16d96db2580cb0582db2492436db6d80196db6da0492492016db65b60160100004924b6012496492492492490db6db6036db25b60b6db60000924900;
   0x124924921ffffff8240240241ed924905b6db60024924b6c024b24800bec925b00b0080012592590492492482492492412c924905b64924805b2590000410080;
   0x120000901ffffff8240240241ff924904b6db60020924f6c020b20000bfc805a0010080000780590092492480092090012492490092482480092492000400080;
   0x2d92496c16db6db25b2db2582db6db2436db6c005b6d96da0496492006db24b6002c060004b25b6012496492092492482db6db6436db25b6016db6d800924900;
   0x364924921fe4bfc82496492416fffd925b6db20024925b6c024924800f7f92de00160300024925900924b2482492492412c924921b6592c80012c92000c00180;
   0x1e4824920f0012000490092017ffffb21b6db20020907b6c0249248003eff2fc000201000048059009249248000000001249249009249a480002492000400000;
   0x2db25b2c164924900b6016d82db6db6c16db6d805b6db6d805b6db6002db6db4000582c004b65b60124924924924924825b6db6416db6cb00005b6d800924900;
   0x12d924900924924804b24b20025fffbe0b6db2402492db6c024b248001fffff80000c10002d925b00924904824924924924924920b64b24800024b2c00400000;
   0x124924900000000004924920004bfffe0b6d92402093db6c024b248001fffff00000400002d807d0092490080000000002492482012492400002492400400000;
   0x5b6db60124024800b2d96c00012db6c16db2db01925b6d805b6db6000db6db00000304004925b6006c920104924924864b6db2402db6db00005b6da00924b00;
   0x2492480090000000492492000012dfe0b6c02480c16db6002496480007fffc00000182002592590012490000492492012492492016492400002496c00400400;
   0x4924000000000000124800000004be032002480cbedb6002492480000fff000000082002490590002490000000000010010010002492400000492400400000;
   0x16d80000000000000490000000016c02c005b00b6db6c001b6db00000b6c000000061805b65b60124b6400012492000c924920005b65800000b6d800b24b00;
   0x920000000000000000000000000120000024801b6db00005b2c80000090000000010802db2db00925b0000000000002492480000d96000000496400492400;
   0x100000000000000000000000000000000004000b6db0000492480000000000000010002492480000490000000000000492400000090000000092400492400;
   0x2000000000000000000000000000000000080002db60000b6db00000000000000004004925b6002412000000000000012c80000002000000016d800b6db00;
   0x24000004b6400000000000000002002492480010000000000000000000000000000000000092000492400;
   0x0;
   0x120000004900000024000020000120004800000024000024120000000000000000000000000000000800000024000;
   0x2490000016d800000920000100025b00124800000920001b6490000000000000000000000480000010400000492400;
   0x2492000092492000092400010097fb00124800000924001fe490000000000000000000002490000092400000000000;
   0x2cb6d80096db6d80092490002196db6012492400092490016d92480002db2000002400002db6c00016db00000924900;
   0x100000000800000024000000100000124924005b6db24024924800024b6db00924900024924801b64924000b6db00005b6c00016db6000092480002492480;
   0xfe0000007f0000007e000000fe000012492400496592402492c800024bffb04924920024924800fe492400096c90000ffff80016492000092480002000080;
   0x16d800001b6c00002db0000016d80016db6db05b6db6db04b25b2012492db60924924805b65b2016d924900b6db6c005b6db6016db6d800165b60001b24b00;
   0x1ffc00003ffc00003ff800001ffc000964964824bedb2412c92590412496db0492492002c925900b6492480db6db6017ffefb0196db6c02492490002db6d80;
   0x7ffc00003ffe00003ffc00007ffc000be4924824f25f2413c925b0412497ca04924920024924900b24924804b059201ffffff0096d92402c92490000492480;
   0x36da00005b6c00006db6000036da0036db6cb65b6db6d825924964124925b6096c964824924924124924901b6cb6d82db6db6c36db6db05b6db60001b6db00;
   0x7ffc00007ffe00003ffe00007ffc004b64965824b6db6416592c90092492db24b25b2412492490092492482db6db6c37dbeff6496db6d82db2490002db6d80;
   0x7ffe00007ffe00007ffe00007fee0049749e4824b25b2416793c900924924a24f25f24124be490093c9e48249249243ffffffe496db24824b2490000492480;
   0xb6db0000db6d80016db2000096db00b6db6db65b6db6db2cb65b24125924b6496c96482496d92412db6d925b6db6db2db6db6cb6db6db45b64b6c001b65b00;
   0xdb7d8001ecb300009e5b0000c93580496cb64964f6df6c12592c92096c925a24b25b24125b6c924964b6486db6db6c37fb6df6496db6d82db2490002d92d80;
   0xd93f8001ec930800d81b0000c83780497c9e4824fe5f2412792e9209ee924a24b24d24125f7c904966d248249249241ffd75f2496db64824b2490000492480;
   0xb6db0c00db6d960165960800b2cb0cb6db6db65b6db6db24b65b2412cb2d924924924924b6d924924924925b6db6db2db65b6c36db6db65b6db6c000924900;
   0x7bee1e006ff61800f7df0c007bee1e496c96496df6df6c125924920924b6c824924924125b2c92492492482db6db6c16d92fb2596db6da6db6490000492480;
   0x7ffe18007ffe18007ffe3c007ffe180924924824b25f2412492492092493c82492492412792c90492492482492492412f93ff2496db6c82492492000492480;
   0xb6da38005b6c30006db65800b6da3896db6db65b6db6db2592492432492592496c924924b6db6492c925924b6db6c82db6db6c36db6db65b6db24000924900;
   0xfffc30007ffe7000fffc6000fffc304b6db6c86db6db6c124924925924924824924924125b6490496496482096d90412592ff2196db6db2db6c92000492480;
   0xfffcf001fffc6000fff86000fffcf00b2482c8249ed92413492490492492482492492412592490097c9e482000080412597ff2096db6c80492d92000492480;
   0x1b6d96000fb6de0016db2c001b6d960164b64b25b6d96d82592c924b65b6496496c96482496db64b65b6c92592492582db6db6c16db6db60b6db6d801924900;
   0x4fe180006ff3c00037f140004fe1800b6db6c82db24b6c12cb65904b2d92482492db24124b64905b2db2d82c92492c125f2ff20b6db6da01b6db2402c92580;
   0x4ff380002ff3c0001ffbe0004ff3800b24924024f24f2412cf3f900f2492480493f920024b24907f2493de04924920125c05f0036db6d80092492400492480;
   0xb7db00005bef80012db7c000b7db00164b64b21b6596d804b65b20165b64960b6db24804965b68b6492db60b6db6d82db6016402db6db6016db6d801b65b00;
   0x2dfef8003eff7c001f7fbc002dfef800b6db6c80db24b60025924900924924804924920024924905b2496db05b6db6012580010016db6d80002db6402db6d80;
   0x7ffefe003eff7c007f7ffe007ffefe0016db64004924b2002492480012492400492492000492490192497fe0092490002580000002db6d80000492402492480;
   0xdb6db6006db6db00b6db6d00db6db6012db6d80036db6c00492492002492480016c92400092db60124925b6016db60005b00000000b6db0000016d901b6db00;
   0x7fb6ff00ffdbff00ff6dfe007fb6ff00124924801b6db0000492480002492480092490000092490012492d80016d800004000000000b6c000000b6c02db6d80;
   0xffbfff00ffdbff00ffedff00ffbfff0002492000092490000092400000492080012480000002480002492f80002000000000000000012400000012400492480;
   0xdb6db6016db6db00b6db6d80db6db60005b6c00002db20000124800000924020024900000000b20000924b00000000000000000000000800000005b00924900;
   0x2492490092492400492492002492490000480000002400000000000000000000000000000000400000000400000000000000000000000000000000400092000].
Definition emoji_rows_78 : list N :=
  [0x80000000000012480000000000000000000000000000000000000000000000080000000000000000000000000000000000;
   0xa0000016002db2000012db64001900b0000000000000000000000000000092000006c160000124800000924000000000000000000;
   0xc020005b00b6df00005bff96002c00580000000000000000000000000000480000096db0000492400002492000000000000000000;
   0x2c00000000000092002002c004b00be5f0000ffffff0078005e0000000000000000000000000000480000093fb0000492400002492000000000000000000;
   0x5b0000092400016d92c00db00b6c36c168001b6db6d80db00960000000000000000000000000024b6480036db6c00492492006c925b00004800000024000;
   0x6f800024920005b6cb6016f805b21b00f0003dffff7c16e007b00000000000000000000000000124824005925b60024924800fe497f00007c000000be000;
   0x6f800000100007f2490016f804903c00f0003cb6d93c1fe007f00000000000000000000000000004800005924b60024924900ff49ff8001ff800001ff800;
   0x5b00004964905b6496002db60b60360160005924925a0da41368000000000000000000000000024b6490036db6c004b65b2016d92db0002db4000036d800;
   0x2c90002492486d924b0037fb05a05800f0007c92492c17cc31f00000000000000000024924800924824000924b0012db6d905ffcbff8003ffc00007ffc00;
   0x2c90000002487e924b0037fbe4a0580060007492492e1f0c20f8000000000000000002492490000480000012480013f17c90792ff25c003ffc00007ffc00;
   0x1b2000492490db2492006db6db20b40020005924925b0c06506800000000000016002c92492c124b6490002db60025b65b64325b6c96006db60000b6db00;
   0xd00002492486c924800b7ffff90580000003c92492c1e0fe0300000000000005f6012492490092492480032c80012db6d925967f65800f7db00007ffe00;
   0xc00000000087c924800bfffff90780000007c92493c1e7ffc300000000000007ffc10000000000480000012480012f93f825976fe5800d24b0000ffff00;
   0x900b0000492400d924b2006db6db40b60000105b2cb2db0cb6db60000000000000b6d864924924124b6490006db40025b65b2496db6db2016cb28001bedb00;
   0x24905800124920064924900bfffff807e0000087e9e597e06db6df20000000000005b6c92492492080492480032580010492402596cb65800925b0000df7f80;
   0x24905800000000064924800bfffffc07f0000087e9a597e63ffffc6000000000000f924c00000020004800000124800100100024f2cb67800d24b0c00ffff00;
   0x2db6c94002492400d92492006db6db60368000165b2cb2db61b6db4c000000000001b6d864924925124b6492006db0002492492496d92db2006db61800b6db0c;
   0x364924000124920064924900bfffffc05b6000187f92497c36db6dbe000000000002db6c924924920924920800964800120120124b6496c8003ffe3c007ffc18;
   0xfe49248000000000649249003fffffc01b6d90483f9249ec1ffffff0000000000003f9241000200200048000009248001209201249249248003ffe38007ffc30;
   0x6c92db6002492480c92492006db6db6036db69b65b25b2c805b6db60000000000005b6d824964924104b6492016db6002492492412492492006db67800b6d860;
   0x32492580016492006492490037ffff801b6df2d82797c9e493db6d82000000080016db6c124824904924920801924800124924924924924800fff86000fffcf0;
   0x3000248000608000249049001fffff800bfdf2f80783c1e47ffffefe0000000a005fd92c12482090000480000092480012492490092c964800fff96000fff8c0;
   0x24924b6002c96c80492092402db6db0006db65b60b2592d02cb6db6c000000b6096db6d80db00b60024b6480036db6002496d92412db6d90016db2c000b6db60;
   0x1249248001e5f6402490094006ffff800b6db6d80f9249e000db6d90010002db0dfedb7c024004800104900005925800124b64900bffbfc80017fbe0004fe780;
   0x800fe7fe6024800900027ffe000924b248079009e0039ffd800b0016da2cfe49fc000000000004800000924800024924900b7ffec0009ffb80005fff80;
   0x92490016db6db0492012400036d80000db6d96036592c02db2d96c36db6db65b6db6da00000000024b6480016db60004924920125b6c90036db6c005b6db60;
   0xffffff824900900000be000092016d801f2cbc03e700c3c5b6db6da7fb6dbfc000000000124924000924900024924800124924007f7dbe007dbefe0;
   0x1ffffff824800000000000000100024801f25f80106006005b6db6d87ff6fffc000000000004800000924900024924800124924007f7dfe007fbeff0;
   0x16db6db0492000000002080000000590016db60000b00b00b6db6db65b6db6db00000000024b6480016db60000924900024924800b6db6d80db6db60;
   0x1ffffff8249000000009240000000000003ff800006004005b6d92f87fffdffc00000000012012400092490000492400002492000ff6dfe007fb6ff0;
   0x1ffffff82480000000000000000000000007f00000600600012000402ffe03fc00000000000000000012480000092000000490000ffefff00fff7ff0;
   0x16db6db0492000000002080000000000000590000000000000000000002402c000000000000000000000800000024000000120000b6cb6d00db65b60;
   0x2000000000000000000000002000000000002000000000000000000000000010000000000080000000000000000000000000000000000000000;
   0x24000000120000000000000000000000028000024000020004900104000000004000000fe0003000020c0000000000000000010002000006000000000000;
   0x2db2000002d800000000000b6480000000c80000cb0000c005b6c161b00000000b2c80036d80030c001065800000a2000000402db6d80000d800000000000;
   0x36d80000012400012480007ff2000000012c000124800024b6006092c00000000c164007ffc00404002026c00002e10000012016ff6c00016000000000000;
   0x12490000012400017d8001ffd3800000002c00092490007c80006492c00000000c12400ffff004184030266000066120000120127f2400016c00000002000;
   0x25b60000000b0006db6006db2d80000000c90016496800496db2cb2da00000000b6db01b6db00a0c82186db0432db6d80016c02cb6580002d800000065000;
   0x2db00000004800b6db00fe593c000000124801924900005b6db6492c000000024b6c03ffff80418c33c36d86432c3e4000be032596c00016c000000b6000;
   0x12c900000000801ffff00fe183400000012000492492000fffff84924000020125b6c03ffffc07bec33cf64a247261fc005fe01799e400016c000000b6000;
   0x2db6c00000010036db6c06db25a0000002d80032492c005b6db6cb6db0002582db6d805b6db60b6d82db65b6096db2db6db6c025b6c80016db2000406d020;
   0x2db00000000805b6db60f3592c00000012000592496006db6db4592480006c96cb6007ffffe05b6c36d86592d9641fc925f2032492c005b6db00160b6030;
   0x490000000080fffffe0f3982c0000001200049249201ffffff8492480002c96402007fffff0000c1000649fd9241e4924f0032492c005b6db2012076010;
   0xb68000000140b6db6d065925b0000002400032492c02db6db6cb6db60820b6c36000db6db60360820b45b6db6da2db6db6c02d92d801b6db6d82c06c06c;
   0x2db0000000080db6db60b3d92580000032000592496016db6db04924820804b0080037fffff63b6cb2dc2d97cb6c164924b0036cb6c02db6db6c32036094;
   0x10092490000000083ff6dffc33db640000001000009249003ffb74904924900004b008003ffffff63924b24c2493c92c12492490032492c02db6db6c12cb6592;
   0x2016db60000000301b6db6d82d92494000006400016496c06db24000b6db64120b6000006db6db6c325b6c941b6db6d80db6db6006db6db05b6db6db6db6db6c;
   0x205b6da0000092482d92c96c3acb27c00000920000924b0036db20004924920805b000003edb6dbe196db6482cb3c97c12792c900f6db6e06db6db6c125b6c92;
   0x592480000492483e92497c19c30f8000249000001248007e1000004924900005b000003efb7dfc092492480f93c9f012792c90072492e06db6ff6c125b6c92;
   0x60b6db60000b6db05b6db6da2d92592002d92400006492006c000000b6db6c921b2c00002db6db6c16db6db00b6db6c00db6db6006db6db05b6db6d86db6db6c;
   0x32db6d80002c92483d96596c1ecb35b00124920000165800b60000004925f248059000001edb6db0016db64000b7db0012492490076db6e06db64960124b6492;
   0x124924b0002492483f9a59fc1ee367f000249000001e78003c0000004925f200051000001ec925f0003cbe000197cb0012092410072492e06db24920124b6492;
   0x2db6db6c005b6db05b6cb6da2cb64b2006492c00006db6006c000000b6db6c921b2c00000db6db68005b6c000b6db6c02496d92406db6da05b6492006db6db6c;
   0x16db6d80002492403f9249fc964b6c9008249200019e7b403400000049249248051000001edb6df0002db6000cb3d96012492490036db6c06db0000012cb6592;
   0x2496080002492401f9009f8864fcc1c0c249200019e79403c00000049249240040000001edb6df0002cb2000cb3c9300209208003e493c02fb00028124b6492;
   0x5b6d82000db6db01b6d96d86586d92c16492400036cb2c02c000000b6db6d900b0000000db6db60005b6c001b6db6d80496db2002db6d805b60005865b6db64;
   0xdb6010012492402fb3cbecf3c124be082012000592496036000000492492480580090006db6db0002db4000db6cb68004b640001edb7802db6006802cb6582;
   0x49e000012492400ff2cfe0f3c024f600201200049249203e000000092492480580490006fffff0002490000cb429300003e400002496003db6496000036080;
   0x182c00002db6cb00b6db6d86c800b6c00582400092492482d80000016db6db00b6db2c005b6db60001b6c000b6c36d80012c800005b6c80436db6d80002c000;
   0x2c1c0000124105805b6db60be4007f6012012000090090016800000092492c800b6002006db6de0000db0000c90196000092000012db20000b6db6800000000;
   0x241c000012400580193c9003e0007fe00000200009009001f800000012492400090002003db6d800007f00007b0096000092000002ff2000002406000000000;
   0x182c000165b00b4016cb6002d80036c02582580092002480d800000005b6db00000004001b6db00000b6000016006c000024000004924000000005800000000;
   0x2c1e0004825805800100800128001f0010c328004800120140000000004924000000020005b6c000005b0000000000000000000002002000000002c00000000;
   0x402000000000080000000000000000010010000000000000000000000000000000000000012000000080000000000000000000000000000000000000000000].
Definition emoji_rows_79 : list N :=
  [0x4900000100000000004000000000000000000000000000000000000000000000020000000000;
   0x80000000000000000400000000000000480080080000430086000000000000002000000000000000000000000400000012000000000;
   0x80492480000000080000000000000000000000000000000490000080400410186000010010000012400000000000000000000000400000012000000000;
   0x1b60b6db6db60000364000000000000004b0000000000026db6402c101800a6c32400c96d96000002db00000000000000000000000900000024000000000;
   0x2db00b7fbffb0000492000000000000002580000000000436db0004182000c264860164924b0000012c00000000000092000000002400000012002000000;
   0x259000069ff900004920000000000000001800000000021b24b2004582000ef24e600f4924f0000092c00000000000092400000002480000012002000080;
   0x5b6c000b65b60000324000000b00000004900000000001b6d96c004b60001b6496d80db6db6000016db0000000000096d90000000db0000002d804000060;
   0x125f0000580590000482000012d80000002080000000000d924b0004582000db24b60064924b0000092480000000000492480000012480000012402000030;
   0x125f2000480480000090000092d80000000000000000000492492004582000df20fe0064924b0000092480000000002492480000012000000012402000010;
   0x2db6c000b60b6000016400016db6000000482000000000cb2db6c005b6c000b6186c00492c96000036db00000000004b2cb2000000d80000002db0580000c;
   0x964b00125805800024900001b6d80000002000000000006c924b0000590000582c360024924900005b2480000000002492490000012000000012402c00014;
   0x924900125804800124900005be4800000000000000000024924b0000580000583c30010492410000492080000000002492490000012000000010000400094;
   0x32db6c16db60b6096db6c001b6db60000000800000000005b65b2c124b6492016db60025b6db24001b6c10000010002596d96400002d80000002c00580016c;
   0x596c90196d80580492490016db6da0000000400000000002492580492db2480036d80013ff7f90002db20004804900124b6490012492000000092000c001b6;
   0x492480086e80480092490016d9ec8000000000009203001649248000259000001ff10007ff67f00024920004924900124be490012492000000490000407fbe;
   0x1b6db0032cb60b6016cb6002db6db60100920900b25b6c02d96d860024b6480010db2002db6db64005b6c005b6db60024b6cb6406db6d800000b6c00cb6db6c;
   0x2db2480596d80d80092490036db6db0082490480c925f6006492c000265b2400096d3001fdb6ff2006db20024924b00125b64920924920000024b2000dfffbe;
   0x24924005d6482480092490012cb7d900000000024c00fe0064920000005b24000c6c2001fff7ff80124920024924920124924920924920000024900024fff96;
   0x5b6c900b6db6db6016db6002db6db60024924925b6496c86db6d90006cb61a0016db6002db6db6c02db6c005b6db6d82cb2db2c16db6d800005b6c00db6db6c;
   0x16db6c0063edb6d80092480036db6ca20924924824b2496036596c00080db01801b6d90036dfedbe016db6002492492412492492012492000002492002d97f80;
   0x124920007de4924800124000365b2c8000000000649e406006592400180db00800ffff0076cfe5b6012490002492492412492492012492000002490013c97f80;
   0x2db6d80036db6db6002d80002db6db64124924925b6db65805b6c00030cb6106012db6006db6cb6c06db6c005b6db6db2db6cb6c02db6c00000db6006db6db00;
   0x12db6000096db6d80012800036db6c90092492486497ff2c165960004005b20001b7fb0036c925be096db00024924924124b6492012490000012490017cb6c80;
   0x12490000012492480000000016d96c80000000006493f826125964000005b200001ff800360000f40924900024924924124b6492010490000012480017cbec80;
   0x5b6c00000db6db0000480006db6d96012492492cb6db00825b6c800004b6000006db6002d92496c16db60005b6db6d82d96d96c02012c00002db0000db6d860;
   0x65b0000006db6d80000400096c16cb0092492486492f80002c96000000582000093cb00364b64b6096d800024924924125b6492010010000012400012df6010;
   0x12480000002492480000480012c12c90000000000497f00012c92000000180000003c0000243e0800024000004924120024b6480000010000010400010480010;
   0x2cb20000005b6db00004b0000d80d82c024924900b6cb0000cb69800000100800005800000924900100300000b6db0400016c80002002000406cb00020800000;
   0x104800000005b6c00002400016c16c16002492400780f00000db0000010000c00007c00000092400002180000492400000036000010010002490400000000000;
   0x10400000000492000000400002c12c0200000000078060000200000002000040000fe000000000000000800004004000000a6000010010002480400000000000;
   0x6000000000012400000080000d80d800000924000300b0000036000006000030000cb00000000000000900000b01b00000064000020000000b20920000000000;
   0x2002000000000000000000000400000080000000010000000000000000000000400400000082000000000000000480000000000;
   0x0;
   0x12400000490000000000400000012400000002000000480000016c000000000000000000000000000000000000000000000000000005800b60000000000000;
   0x4920000024900000000120000004920000000800000024000025b6000000000000000000000090000000000000000000000000000016c02cb0000000012000;
   0x2400002492480000000000010000000490000000000000000000000000000012403e300000000b6000;
   0x92490000492480000002480002492400000492000092490002db6c96000000080016c000000b20000000000000000000004b6000002db05b2c00000036d800;
   0x4924800024920000000124000124920000124800024924000b6db6590000000c001f6000000490000000000000000000012490002036c07f920000004b6400;
   0x8000000000000000000000000000000000000249240009249201e0000004001fa4000004800005fe0000000d0000082492012412407f9a000000492480;
   0x92492000492480000002490012492400012492002492490036db6c00c000000b0016db00001b00005b6d800124b6d80092492c02db2c925b2c00000592cb60;
   0x4924800024924000000924004924920000924800924924005b6db60060000001801f2400002480007ffe0801b6db6c004924920b6d960a6592000002c92580;
   0x800000000000000000000000000000000000924924004924920000000000901f2400002480017ffe7c04924966000800120924820e0192000006cb65b0;
   0x124920000924800000120000924924000924920124924901b6db6c00080000002c36d800005b0006db6db60b6db6da0492492416db6506032400000d96cb60;
   0x2480000012400000480002492492000492480092492402db6db60004000000965920000124800b7fffdf0db6db6c024924921b6da20204b0000016c925b0;
   0x924924024924920000000004965f0000012480093fffdf24924b60104000820924820204900000164924b0;
   0x4900000124800000900004924924004924920124924905b6db6c000100000b6db6000002db0036db6db65b6db6482492492436db6182096000002d92496c;
   0x12400000092000002400002492492002492480492492406db6db6000080000496c900000924805b6ffedb2db6d800124924965925a2000d800000364924b4;
   0x492492412492492000000000492480000492480493fffca2496c8000001241c4000920026800900164924b0;
   0x2480000012400000480000492492400492492092492492db6db6c000020001b6db60005b6db00b6db6db65b6db6002492492c02406d805b6c96402d92596c;
   0x12000000490000012000012492492012492480492492416db6db6000010002496db00024924805b6ffed82db6cb40124924b00100160067965f20365b6cb6;
   0x492492412492492000000002492480012492480493fff483d920020020004200000000067ba7f60364b64b6;
   0x2400000092000002400002492492402492492092492492db6db6c000004005b6db2002db6db00b6db6db61b6c004064925960004000004965b6586db24b6c;
   0x90000000480000092000012492492012492482492492436db6db60000020024964800124b25805b6ffed83db60000324924a0002000006493fffc36d92db6;
   0x2492492412492592000000002496480012492180492ffe483c920000124920c0002000007007fffe36db6db6;
   0x12000000090000492000002492492402492492492492496db6db6c000000804b64b6002d92c16496db6cb05b6c000024924940004a0000592db6db6db6db6c;
   0x90000000400002490000012492492092492482492492436db6cb60000004024804800100360b24b6ffe006fb6000032492480002000007dbfff6cb6db6db6;
   0x24924924125924b00000006004804800300900000927fe003fff400012000080000000003ffff800b6492436;
   0x12000000490000492000002492492412492492092492496db64964000000101b00b4002000000016016c005b6db0000d924900000000005b6db0006c92c96c;
   0x490000002400002480000012492492092492480492492436c924920000000821805800300000000b00b0003dbffe0002d92580000000003ffff800b64924b6;
   0x40000000000000000000000049248241200008000000000208048003e000000090090000fffff0000d96e00000000000ffff00092492412;
   0x12400000492000012000002492492412492492092492492d92492400000002430096006c000000060060000b6db6000086c800000100000b6db0002412c824;
   0x120000004900004800000124924920924924804924924364924920000000021804a00360000000300300005ffff0000000000000480000790f00012082412;
   0x800000000000000000000004800000160000000000000020804900000000000000000000bff80000000000000480000180600000082400;
   0x4000000000000100000024924924124924920924924824924924000000000000100000000000020020000024900000000000000000000100b00000100800].
Definition emoji_rows_80 : list N :=
  [0x400000000000000000000;
   0x2d80000012400000090000;
   0x580000000000000000000012492400000000000000000000000000000000000000000000000000092480000db6c00006db00000b6c800;
   0x1000000000000001fc800000b6000002c00000092490000000000000000000000000000000000000000000000000000492400016db60000b6d80000492400;
   0x3ff800001fe400003ff0000010080000000000000000000000000000000000000000000000000000000000016db6000092490000492400;
   0x12480000492480006db6000036db00005b6d80012cb2400000000000000000000000000000000000000000000000000092490000db6d80016db6c000b6db00;
   0x4924000024920000ffff00007ffe00007fffc00092490000000000000000000000000000000000000000000000000000492480016db6c000b6db6000492480;
   0x1ffff00007fff0001ffffc00000000000000000012000000080000000000000000000000000000000000080016db7c00092492000492480;
   0x92490002492480016db6c000b6db0002db6d80012492400480000016c000001b6000002590000012400000092000000092492000db6db0016db6c000b6db60;
   0x4924000124924001f6cb8000fb670003ffffc000924900124000005b6000002da0000012400000092000002480000000492480006db6c000b6db6000492580;
   0x4804000000000001d2038000c9270003ff97c000000000000000001b6000002480000012400000000000000000000000000080002cb7c00012492000082480;
   0xb6db0002592c80036c92c000b6db0002d92da0012492402490000036c000005b6000002db0000012400000092000000000492000006da00000b6c000005b60;
   0x5b6c00016db64001b6db0000db6d0003edb7c000924900124000001b6000002db00000124000000920000024800000000024800000b6c000005b0000002480;
   0x6b64000065960001b3cf00006b640003e597e000000000000000001b60000024900000124000000000000000000000000000000001b6000000490000012480;
   0xb6cb00025b6c80016db68000b6cb0002db6db0012492002490000036d800001b6000002db0000012400000092000000002490000036d800005b6000002db00;
   0x5b6c00012db64001b6d900005b6c00036db6c000924900124000001b6000002db00000124800000920000004900000000124000005b6000002d80000012400;
   0x592c0000249200009249000049240003a493c000000000000000001f6800002c900000124800000800000004000000000000000005b0000002480000012000;
   0x12c80002492480012592000012c80002c92580002492002490000036d800001b6c00002db20000124800000924000000024800000b68000005b0000006d800;
   0x9240001249240009248000009240003e493c000124800124800001b6c00002db60000124900000924000004920000000120000005b0000006c00000092000;
   0x9200000048000000240000009200001a4838000000000020000001fed80002492400012490000010000000400000000000000000580000002400000092000;
   0x12c800000b6480002590000012c80000cb6580002492002492490036db6d805b6db6002db6c900124924804924920000024000000b6000000d80000006c000;
   0x92000000490000002400000092000010490c000900900124924805b6db6c02db6db0012492480492492402492490000090000000d80000006c00000090000;
   0x805b6db7c02492492012492480000000400000000000000000000d80000012000000090000;
   0x4024020000924000124924004824120000924000020120024924920b6db6db05b6db6d82db6db60124924904924924000120000001b0000002d800000160000;
   0x16d92db0016c96c005b25b6016d92db0016c96c000900900124924905b6db6d86db6db6c12492490492492482492492000080000002c00000016000000090000;
   0x32f82f9c037c1ec00df81f7032f82f9c037c1ec000000000000000105b6db6f82492492c12492490000000480000002000000000002c00000012000000480000;
   0x6db6db6c06db6db01b6cb6d86db6db6c06db6db00020120024924924b6db6db65b6db6da2db6db6c124924924924924800920000005b0000006d000000b60000;
   0x325b6c96096db6583cb65b2c325b6c96096db65800100800124924925b6db6db2db6db6c12492492092492482492492400490000006d800000b6000000490000;
   0x52492492192492583492492c524924921924925800000000000000001b04b6da0482492412012492000000000000000000000000002d80000012400000490000;
   0x6db6db6d36db6db45b6db6da6db6db6d36db6db4002002000400492412002db60800965804004924000024920000124800024800000b6c000025b0000012c800;
   0x925b6c92792db25c6496d92c925b6c92792db25c00000000000000000000000000000000000000000000000000000000000120000001b0000002c80000012000;
   0x80092002000490082012480400092002000490080000000000000000000000000000000000000000000000000000000000000000000080000000000000000000;
   0x0;
   0xb6000000080000000000000000000000000000000000000000000000000000000000000000000000000000000000000000000000000000000000000000000;
   0x1fe400000480000000000000000000000000000000000000090000000000000000000000010000000000000000000000010000000000000000000000000000;
   0x1b6db00000b640000008000001248000009200000240000001fd800000b6000002cb0000016d800000b6000002c90000016d800000b6000002c900000124000;
   0x2fffd80002ff6000037c000004924000004900000124000007ffc00002ff000003ff000005b6c00002db0000036d000005b6c00002db0000036c00000092400;
   0xfffe00007ffe00003ff80000492400002490000012490000fffe00003ffe00007fff00007ffe00003ffe00003fff00007ffe00003ffe00003fff0000000000;
   0x1b6db00005b6d00016db60000924900004924000024924001ffff00007fff00007fffc000b6db00005b6d00006db6c000b6db00005b6c00006db6c000924900;
   0x3ffef80007ffe0001ffff0000492480002492000092490001ffff80007ffe0001ffffc000db6d80006db60000b6db4000db6d80006db60000b6db4000492480;
   0x3ffef80007fff0000ffff0000492480002492000092490003ffff8000ffff0003ffffc001ffef80007ffe0001ffffc001ffef80007ffe0001ffffc000000000;
   0x1b6cb0000db6d80016db60000924900004924000124924001ffdf8000ffef8003ffffc001b6db0000db6d80036db6c001b6db0000db6d80036db6c000924900;
   0x3d92f80006d960001f27b0002492480002492000492490003df6f8000edb70007ffdfc002db6d80006db60005b6db4002d92580006d960005b6cb4000492480;
   0x3fb7f80007cbe0001fe7f8000482480006c96000092090003fb6f8000efb70007ffdfe003d92d80006db60007f64fe003d92580006cb60007f24fe000482400;
   0x1b6db0000db6d00036db6c000b6db0000db6d00016db64001b6db8000db6d8003edb7e001b6db0000db6d80036db6c001b6db0000db6d00036db6c000b6db00;
   0x3df7d80007dbe0001fefb80005b6c800065b60000b6db2003db6d800165b60001b6dbe002db6d800165b60001b6db6002db6d800065b60001b6db60005b6c80;
   0x3fffd80003ffe0003ffff80007b6c000067d60000b2cd2001db6d800167d60007f2cbe001db6d800067d60007b2cbe000fb6d800067d60007b2cbe0007b6c00;
   0x1b6db00005b6c00036db6c000b6db00005b6c00016db64001b6db0000db6d8003edb7c001b6db0000db6d80036db6c001b6db0000db6d80036db6c000b6db00;
   0xd92d80002c960001b25b8000592c00002d960004b2590000db6d80006db60007b6dbc000db6d80006db60005b6db4000d92d80002db60005b6594000592c00;
   0x190c000020900001d0098000010000000080000082410000dbef00002ff60007f7dbe000c92400002590000792cbe00049240000249000039249c000010000;
   0x924900000924000164928000924800004924000124924000b6db00005b6c0003edb7c000b6db00005b6c00036db6c000b6d900005b6c00036db6c000124800;
   0x924000024900000d24b00000b6400002490000092c900005b6c00002db40001b6db80005b6c00002db00001b6db00004b64000024b00001b2cb00000b6400;
   0x120000000800000724f0000012000000490000082c100001fec00002ff0000197f980000b6000002590000093c90000092000000490000092c90000012000;
   0x12480000092000002496000012480000092000010490400016d800001b6c00010db0c00016d800001b6c00010db0c00016c800000b60000105b0c000124800;
   0x120000004900000024000000120000004900000024000000b6000000db0000006c00000036000000db0000006c00000012000000490000002400000012000;
   0x200000000000000000000000000000000000003e0000007f0000007c00000012000000490000002400000012000000490000002400000010000;
   0x5b25b6016d92db0036c96c005b25b6016d92db0036c96c005b6db6016db6db0036db6c005b6db6016db6db0036db6c005b6db6016db6db0036db6c005b25b60;
   0x2db6d90196cb6d804b6db2016d92db01b6c96d805b65b6016db6db01b6db6d805b6db6016db6db01b6db6d805b6db6016d92db01b6c96d805b65b6016d92db0;
   0xffffff01ffffff807ffffe01a7d3c98497cbe480cbe7f201a7ffc98497ffe480cbfff201a7f7c98497dbe480cbe7f201a7f7c98497dbe480cbe7f201a7d3c98;
   0xdb6db6836db6db60b6db6c02db6db6cb6db6db61b6db6d82db6db6cb6db6db61b6db6d82db6db6cb6db6db61b6db6d82db6db6cb6db6db61b6db6d82db6db6c;
   0x1fff7ff07ffdbffc07feffe0324924964924924b3c92492c324924964924924b3c92492c324924964924924b3c92492c324924964924924b3c92492c32492496;
   0x1fdf7df83fecb3fc079e7be03249249e4924924b3492492c3249249e4924924b3492492c3249249e4924924b3492492c3249249e4924924b3492492c3249249e;
   0x2db6db6c36db6db60b6db6d86db6db6cb6db6db65b6db6d86db6db6cb6db6db65b6db6d86db6db6cb6db6db65b6db6d86db6db6cb6db6db65b6db6d86db6db6c;
   0x12492490092492480492492032492496492492492492492432492496492492492492492432492496492492492492492432492496492492492492492432492496].
Definition emoji_rows_81 : list N :=
  [0x0;
   0x900900000120000000800000000000001b60000000800000000000000b60000000800000000000000b60000000800000000000000100000000000000000000;
   0x21b6c80002490000000400000000000003ff2000002c00000000000002db0000000c00000000000002db0000000c00000000000002490000000400000000000;
   0xfe08000249200000240000000000001fffe00001fe00000000000017ffe00000fc00000000000017ffe00000ec00000000000000000000000000000000000;
   0x196d90002492480002492000012400002fffd80002ff6000037c80002db6d80002db6000036c80002db6d80002db6000036c800024924800024920000124000;
   0x21b6c8001249200001248000009240001fffe0000fffe00007ffc00016db60000b6da00005b6c00016db60000b6da00005b6c00002492000012480000092400;
   0xbe08001249200001248000049240001ffff00007fff0003ffff0001ffff00007fff0000ffff0001ffff00007fff0000fffe00000000000000000000000000;
   0x196d90002492480002492000092490003ffff80007ffe0005ffff0002db6d80006db60005b6db0002db6d80006db60005b6db00024924800024920000924900;
   0x21b6c8001249200009249000049240003ffffc000ffff0000ffff00036db68000b6db0000db6c00036db68000b6db0000db6c00012492000092490000492400;
   0x20be08001248200009249000049240003ffffc000ffff0001ffff8003ff978000ffff0001fbff0003ef978000ffcf0001f97f00002002000010080000400400;
   0x596d96002d92d80006c960000b25b0003db6d80016db60001befb0002db6d80016db60001b6db0002db6d80016db60001b6db0002592c800064960000b24b00;
   0x21b6c80016db60000b6df00027b6c8003edb7c000f6db0003db7f80036db6c000b6db0002db6d80036db6c000b6db0002db6d80016db60000b6df00027b6c80;
   0x1209a090013ffe0000bffd00027ffc8003ffff8000ffff0003ffff8003ffff8000ffff0003ffff80037ffe8000ffff0003ffff80003ffe00003ffc00007ffc00;
   0x2d96d96c025b6c80017dbe0000b6db0003db6d80017dbe0001f6dbc002db6d80017dbe0001b6db4002db6d80017dbe0001b6db00025b6c80017dbe0000b6db00;
   0x361b6cb6017ffe0000beff00025f7c8003ffff8000befb0003df7f80037ffe0000befb0002df7d80017ffe0000befb0002df7d80017ffe0000beff00025f7c80;
   0x1209a092013efe00003e7c00027f7c8001ffff0000ffff0003ffff8001ffff0000beff0003ff7f80017efe0000be7f0003ff7f80003efe00003e7c00007f7c00;
   0x2d96d96c00592c80002db60000b6590002db6d80006db60001f6db8002db6d80006db60001b6db0002db6d80002db60001b6db0000592c00002db60000b65900;
   0x361b6cb6002492000012480002592c80006db6000036d80003db6f80006db6000036d80002db6d80002d92000012d80002d92d80002492000012480000592c80;
   0x1209a092000090000012080000490000007ffe00003fd80002ffff80002492000012480002d92f80002492000012480000c92580000490000012080000090000;
   0x2492c924004b24000025900000964900005b6c00002db60000f6db00005b6c00002db40000b6db00005b6c00002db00000b6db00004b24000025900000964900;
   0x10000000490000012480000492400002db0000016d800007b6f00002db0000016d800005b6d000005900000124800004b65000005900000124800004b2400;
   0x10000000000000000000000000400000ff0000016d800004be600000490000012480000492600000490000012480000412600000000000000000000000000;
   0x2db6db6c000120000004920000024000000b6000000db2000006c200000b6000000db2000006c000000b60000005b2000002c000000120000004920000024000;
   0x36db6db60024820004824120004124000005b2000486d120004364000025a2000486c12000436400000482000482412000412400002482000482412000412400;
   0x1249a49201741e4004b00f2002582c800177fe4004b7ff20025bec800174be4004b24f2002592c8001749e4004b24f2002592c8001749e4004b20f2002592c80;
   0x2492c92416db6db01b6cb6d805b6db6016db6db01b6db6d805b6db6016db6db01b6db6d805b6db6016db6db01b6db6d805b6db6016db6db01b6cb6d805b6db60;
   0x100000b6ff6d02db6db6c06dbedb00b6db6d02db6db6c06db6db00b6db6d02db6db6c06db6db00b6db6d02db6db6c06dbedb00b6ff6d02db6db6c06dbedb0;
   0x100000ffffff83ffffffc07ffffe00ffffff83ffffffc07ffffe00ffffff83ffffffc07ffffe00ffffff83ffffffc07ffffe00ffffff83ffffffc07ffffe0;
   0x2db6db6c16db6db05b6db6d805b6db6016db6db05b6db6d805b6db6016db6db05b6db6d805b6db6016db6db05b6db6d805b6db6016db6db05b6db6d805b6db60;
   0x36db6db61fecb7f83fb65bfc07db6df01fecb7f83fb65bfc07db6df01fecb7f83fb65bfc07db6df01fecb7f83fb65bfc07db6df01fecb7f83fb65bfc07db6df0;
   0x124824901fe493f83fd24bfc0fc927f01fe493f83fd24bfc0fc927f01fe493f83fd24bfc0fc927f01fe493f83fd24bfc0fc927f01fe493f83fd24bfc0fc927f0;
   0x2492492416c925b01b6492d80d924b6016c925b01b6492d80d924b6016c925b01b6492d80d924b6016c925b01b6492d80d924b6016c925b01b6492d80d924b60;
   0x92000000000000000000000000000000000000000000002000000000400000002000000000000000400000002000000000000;
   0x10000000092400000000000000000000000000000000000000000003000000002400000012400000490000002400000012000000490000;
   0x480000000400012c00000036d80000092000000080000492400000002480000000000180000002d92400016db20005b6c90002db24000164920005b24900;
   0x24000000100000000000005b6c000004800000124000024920000000924000000000028000000924920004b6d900025b6c80092492000492490002492480;
   0x20000000000000000000005b6c000000000000024000024000000000904000000000038000000904920004bfff00024b6c00092492400482490002412400;
   0x2480000002400000400000036d80000492400012490000db24b00000164800000000001800000164b2d901b6db6c02db6db2016db6d901b2c96402d924b20;
   0x924000000100000000000001b6c000124920004924800024925800000924000000000000000000924924025b6db2012db6d90092492402492492012492490;
   0x904000000000000000000000920000004100000900000024925800000804004c00000008000000920004025fedb8012592590092492402410010012400080;
   0x92490000002400012492000036d800024924804924920005b6db60000105800160000001800000364924905b6db6d82db6db6036db6d90596492c82c924920;
   0x2492480000090000092480000092400012492402492490002492d800000024000a0000000c000004924924025f6db6012db6d90496492482492492012492490;
   0x410480000080000092480000092400002000002490090000002480000000400060000000c000004820004025f6dfe012c92490492492402480000012400080;
   0x4924920004924000124920000124800024924905924924000000b00000000b0006000000080000036c924905b6db6d82db6db6036db6d90596492482c924920;
   0x2492480012490000092490000492400092492c02492492000002480000000480030000000c00000492496c025b6db2012db6d90496496c824924b2012492d90;
   0x20804800024000000924800000000000120804024924900000004800000000800300000004100000820124025f6d92012c92490092492402480190012402480;
   0x496496012c92c800124920000924900124964b05b25b24800004b0000000090006da00000b6cb0016492c901b6db6582db6db2016db6c901964b6402c925b20;
   0x12492490092492400092590000400000092492482492492400002480000000480036c00000780c000924b24025b6d96012db64b00964b2402492596012492490;
   0x2080480010400000090480000000000080092482492492400000480000000080030000000600c000920324005fec960125924900924b2400410496012402480;
   0x2492496016592c900124b60000924900164924b0492496c800004b0002480096016d960000b2db0016592d901b6db6c02db6db6016db6db01b24b6c02c925b60;
   0x124924900924924000925900004000000b2492d824924924000024000924004801b6db00005f64001924b6c024b6db6012db6d80192cb6c024925b2012492d80;
   0x2082480082010400082180000000000032492400492492000002400000000080696c900007fe0000904164004befb6012592d800924964004900b0012082480;
   0x4b2596012592c90012496000092490006db6da00b25b2c800005800124920960a6c860000b6d90002c92c800b6db6c00db6db6012db6d800b2496400d924b20;
   0x2492490092492480092590000000080016db6c00492492000002400492490480c32410000db68800124924000b6db60025b6d80012492400092490002492480;
   0x20020800020104000800800000000000126f6402492492000002000400000080c126000007ff88000200200009edfc000492580002492400080010000400080;
   0x4924920024924900124b20000924900024924804925b24800005800b2492496096db6c000b6d80000492580006db6c000b6db40005b6d800064924000b24900;
   0x2492480012492400092490000000080012492402492492400012000492492480c36400002fb6880002492400016db40000b6d80002492400012490000092480;
   0x2080000010400092480000000000012092000092492400012000492002080c90430002797c10000000000006db0000092480000492400000000000000000;
   0x924900004924900124920000924900024924800024b2480002d80036d925900b24b6c80c36c82000092480000db6c00006db00000b6d800004924000024900;
   0x492400002492400092490002080080012492000000492400036c00092492480400db60001b4c00000492000006db0000036d80000492400002490000012480;
   0x49000000048000009248000000000000249200000001240003ff80092492c00602d00010090400000000000002db0000012480000092000000000000000000;
   0x12400000010000012492000092490000492400000000480002db6002db6d80036592c00c12db00000124800001b6c00002db0000016d800000920000024900;
   0x100000000800000124900024924800024900000000000000124800024900000b60b00160b0c00000092000000db0000006d80000092000000490000002400;
   0x10010000000400000000000000080000000400000000000000000000000000].
Definition emoji_rows_82 : list N :=
  [0x100000000000000000000000800000000000000000000000000000000000000000000;
   0x10000000180000002c00000010000000080000000000000010000000180000002c00000030000000c00000000000010000000000000000000000000000400;
   0x3e0000007c0000003c0000003c0000000000000000000000000000007c0000003c0000003e000000c00000000000000000000000000000000000000002d80;
   0x6c000000b60000005a0000006c000000120000004800000024000000b60000005a0000006c000000800000004920004800000000000000000000000005b60;
   0x36000000480000002400000010000000480000002400000010000000480000002400000010000000c00000012490002000000000000000000000000406db0;
   0x10000000480000002400000010000000080000000000000010000000480000000000000010000000c00000000000000000000000000000000000002596d90;
   0x2c00000010000000180000002c000000100000000800000024000000100000000800000064000005b2400092492480080000000000000000000000db6db6c;
   0x30000000080000002400000030000000080000002400000010000000080000002400000030000012c920020924824004000000000000000000000125b6db0;
   0x92000000490000002400000092000000490000002400000092000000490000002400000092000012492400000002400400000000000000000000012596db0;
   0x16d800000b6000000db0000016d800000b6000000db0000016d800000b6000000db0000016d800024b2480492492480012480012480000000080006d96db68;
   0xb6000000db00000124800000b6000000db00000124800000b6000000db00000124800000b60000124924024924924004b64000924000000024000925b6db0;
   0xb60000004900000124800000b60000004900000124800000b60000004900000024000000b60000124924000004000004924000800000000024000924bfff0;
   0x16d800000b6000000db0000016d800000b60000005b0000016c800000b60000005b0000016c800024b2480492492480092490012492000002db2006d96db60;
   0xb60000005b00000124800000b60000005b00000124800000b60000005900000124800000b60000124924024924924004004000924900000924900925b6db0;
   0xb60000004900000124800000b60000004800000024000000360000004800000024000000360000104004000004800004004800900000000924900125b6d90;
   0x16d800000b6000000db0000016c800000b60000005b0000016c800000b60000005b0000016c800024b24804924924801b6db0012492000096c96c06cb6db6c;
   0xb60000005900000124800000b60000005b00000124800000b60000005b00000124800000b6000012492402492492402db6d804924900004b24920325b6db6;
   0x92000000480000012480000012000000480000002400000012000000480000002400000012000010400000000490002db6d800924000024924924127b6cb2;
   0x16c800000b64000025b0000016c800000b64000025b0000016c800000b64000025b0000016c800024924804924924805b6db60924924004b6cb6d82db6db6c;
   0xb60000005a0000016c000000b60000005a0000006c000000b60000005a0000006c000000b6000012492002492492406db6da0492492002496db2402db6db6;
   0x12000000480000002400000012000000480000002400000012000000480000002400000012000012492000002492006db6da00824000024924924005b6db6;
   0x6c000000b60000005b0000006c000000b60000005b0000006c000000b60000005b0000006c00000db6d804924924805b6db60064924805b6db6d90036db6d;
   0x360000004a0000006c000000360000004a0000006c000000360000004a0000006c00000036000012492002492492406db6da00124924024b24924001b6db6;
   0x12000000480000002400000012000000480000002400000012000000480000002400000012000002492000492492006db6da00020000004924920001b6db6;
   0x6c000000b60000004b0000006c000000b60000004b0000006c000000b60000004b0000006c00000db6d804924924805b6db6000592492496d96c90016db6c;
   0x360000004a00000064000000360000004a00000064000000360000004a0000006400000036000006d96002492492006db6da00004924824924924000b6db6;
   0x2000000480000002400000012000000480000002400000002000000480000002400000002000006d96000092490003db6dc00004900820124804000b6cb0;
   0x6c000000b60000004a0000006c000000b60000004a0000006c000000b60000004a0000006c00000db6d000124920005b6db6000012492192db2580006db6c;
   0x36000000480000006400000036000000480000006400000036000000480000006400000036000006db6000012400002db6d80000092400492492000016db0;
   0x36000000400000006400000036000000400000006400000036000000400000006400000036000003f920000000000007ffc00000012400092490000002d80;
   0x6c000000b6000000cb0000006c000000b6000000cb0000006c000000b6000000cb0000006c000005b6c00000000000036d80000000580012db60000000900;
   0x92000000490000002400000092000000490000002400000092000000490000002400000092000000480000000000000012000000000000002400000000000;
   0x0;
   0x2c000000360000004800000024000000120000005b0000002c000000b6000000080000002400000010000000580000002c00000034000000580000002c000;
   0x36000000da0000002400000012000000480000007e0000003f000000fe0000002400000012000000480000007c0000003e0000007c0000006c00000036000;
   0x7a000003f80000000000000000000000000000007c000000fa000003f80000002400000010000000080000007e0000003e0000007c0000006400000036000;
   0x6c000005b6000000490000002400000092000000d80000006c000005b20000004800000024000000120000005a0000006c000000360000005a0000002c000;
   0xb2000002c800000024000000120000024800000064000000f2000002c80000002400000010000000080000006c00000034000000580000002c00000034000;
   0x32000002480000000000000000000000000000002000000030000003400000000000000010000000080000003c00000018000000780000002400000010000;
   0x24000001b0000000080000002400000010000000480000002400000190000000080000002400000032000000180000002c00000036000000180000002c000;
   0x100000024000000020000000100000004000000020000000100000024000000024000000920000005b0000002c000000920000005b0000002c00000092000;
   0x10000000480000002000000010000000480000002000000010000002480000002400000092000000590000002400000092000000490000002400000092000;
   0x6c000001b0000000d80000006c000001b0000000d80000006c000001b0000000db0000016d800000b6000000db0000016d800000b6000000db0000016d800;
   0x90000000d80000016c00000090000000d80000016c00000090000000d80000016c800000920000005b0000016d80000192800000db0000016d80000092000;
   0x90000000480000012400000090000000480000012400000090000000080000002400000092000000480000012580000092000000cb0000012480000092000;
   0x16c000001b0000000c80000012400000190000000c800000124000001900000005b0000016c800000b6000000db0000016d800000b6000000db0000016d800;
   0x90000000c80000012400000090000000c80000012400000090000000c80000012c80000092000000590000012d80000192800000db0000012c80000092000;
   0x90000000480000010400000080000000480000010400000080000000480000002400000092000000480000012480000192800000c90000012480000092000;
   0x16c000001b0000000c80000016400000190000000c800000164000001900000005b0000016c800000b60000025b0000016c800001b68000025b0000016c800;
   0x92000000c80000016400000090000000c80000016400000090000000c80000016c800000920000005b0000016c80000192c000005b0000016c80000092400;
   0x92000000490000012000000090000000480000012000000080000000400000002400000012000000480000012480000092000000490000012480000012000;
   0x16d900001b6c00000db2000016d800001b6400000d92000016c800001b64000005b0000016c800000b60000025b0000016c800001b68000025b0000016c800;
   0x1b6c00000db2000016d800001b6c00000db2000016d800001b6c00000db2000006c000000360000005a0000006c000000360000005a0000006c00000036000;
   0x92400000492000012480000092400000492000012480000092400000492000002400000012000000480000002400000012000000480000002400000012000;
   0x16db00000b6c00000db6000016db00000b6c00000db6000016db00000b6c000005b0000006c000000b60000005b0000006c000000b60000005b0000006c000;
   0xb2c00000d96000016da00000b2c00000d960000165a00000b2c00000d960000064000000360000004a00000064000000360000004a0000006400000036000;
   0xb0400000d920000060800000b0400000d920000060800000b0400000d92000002400000012000000480000002400000012000000480000002400000012000;
   0x68a00000b0c00000d960000068a00000b0c00000d960000068a00000b0c000004a00000064000000360000004a00000064000000360000004a00000064000;
   0xb0c000005960000068800000b0c000005960000068800000b0c00000596000006400000036000000480000006400000036000000480000006400000036000;
   0x30400010582000006080000030400010582000006080000030400010582000002400000002000000480000002400000002000000480000002400000002000;
   0x5b6880002db0c00036d960005b6880002db0c00036d960005b6880002db0c000004a00000064000000360000004a00000064000000360000004a00000064000;
   0x7db0c000b6d860007b68b0007db0c000b6d860007b68b0007db0c000b6d86000006400000026000000480000006400000026000000480000006400000026000;
   0x65b0f800b2d1f0004960f00065b0f800b2d1f0004960f00065b0f800b2d1f0000066000000e60000006e00000066000000e60000006e00000066000000e6000;
   0x120b0000090d800004160000120b0000090d800004160000120b0000090d80000cb00000064000000b6000000cb00000064000000b6000000cb00000064000].
Definition emoji_rows_83 : list N :=
  [0x10000000080000002000000010000000080000000000000010000;
   0x1000000008000000240000003e0000003f0000007c0000003e0000001d0000003c0000003e000;
   0x920000000000000000000000b6000000000000000000000002400000012000000480000007f000000bf000002ff0000006c000000b6000002db0000006c000;
   0x490000000000000000000002ff00000004800000000000000920000004900000124000000fe0000007f000003fc000000b60000005b0000036c000000b6000;
   0x3ffe000003f8000001e0000000100000004800000120000000fe0000007f000003fc000000fe00000079000003e4000000f2000;
   0x492480000492000002480000db6d80000db6000016db0000002400000092000002480000006c000000f6000002fa0000006c000000b6000002d80000006c000;
   0x249200001249000009240001ffffc0001fff00001fff000000100000004800000124000000360000007b0000036c000000360000005b0000036c00000032000;
   0x1ffffc0003fff00001fff80000000000000000000012000000030000000180000032400000010000000080000012400000010000;
   0x492480002492000012490002db6d80002db6c00036db4000006000000030000002500000006000000030000002d000000060000000300000025000000060000;
   0x1249240001249000049248001ef97c0003fdb80007fef800000b00000004800000160000000b00000004800000160000000b00000004800000160000000b0000;
   0x1ec03c00032c180007fe7c0000090000000480000016000000090000000480000012000000090000000480000016000000090000;
   0x2492480002492000092492002d92580006492c000b6cb6000016c000000b0000000d80000016c000000b0000000d80000016c000000b0000000d80000016c000;
   0x12492400012490000492480012492c00032490000f925e0000090000000480000012c000000b0000000580000016c000000b0000000580000016c00000090000;
   0xc18000006080000010400018c18c00006080000c000e00000900000004800000104000000b0000000580000016c00000090000000480000012400000090000;
   0x492c80002496400096592082c92c800024964000b6596080012c00000096000000c80000016c000000b6000000d80000016c000000b6000000d80000016c000;
   0x124920020124900804b2c80012492c02012490080cb2ce00000900000004800000128000000b00000005800000168000000b0000000580000016800000090000;
   0x2000400000000000010000402000400000c000800000800000004800000100000000b0000000580000016800000090000000480000012000000090000;
   0x496492402492412092c92000c964824024924120b2496000016400000092000000c80000016c000000b6000000d80000016c000000b6000000d80000016c000;
   0x2492000012492080492490402492000012492080e924904000920000004900000164000000b60000005b4000016d800000b60000005b0000016c800000b2000;
   0x490010002480000012000000490010002480000f121e0000092000000490000012400000096c000005b6000012d80000092400000492000012480000092400;
   0xb64120005b2080092d924000b64120005b20800b2cb6400016d800001b6c00002db2000016da00001b6c00002db6000016da00001b6c00002db6000016d800;
   0x490080002482400492492000490080002480400f927920000b6c00000db6000016d800000b6c00000db6000016da00000b6c00000db6000016da00000b6c00;
   0x10000000000000000000000780780000092400000492000012480000092400000492000012480000092400000492000012480000092400;
   0x120120004904900124924000120120004904900b2496400016db00000b2c00000d96000016db00000b2c00000d96000016db00000b2c00000d96000016db00;
   0x4900900124924005925920000900800124924005925920000b0c00000d960000060a00000b0c00000d960000060a00000b0c00000d960000060a00000b0c00;
   0x24120900920920005925900024120000920920004924900000b04000005920000060800000b04000005920000060800000b04000005920000060800000b0400;
   0x2d92d96016db6db01b6db6d82d92d96016db6db01b6db6d800068a00000b0c000005960000068a00000b0c000005960000068a00000b0c000005960000068a00;
   0x36c96cb01b6db6d82db6db6036c96cb01b6db6d82db6db60000b0c000105960001868800000b0c000105960001868800000b0c000105960000868800000b0c00;
   0x12492490492492c02492492012492490492492c02492492003cb0400032d82000196080003cb0400032d82000196080003cb0400032d82000196080003cb0400;
   0x2db6db6036db6db01b6db6d82db6db6036db6db01b6db6d80db68b0006db0c000b6d96000db68b0006db0c000b6d96000db68b0006db0c000b6d96000db68b00;
   0x36db6db05b6db6d82db6db6036db6db05b6db6d82db6db60065b0f800b6d9f000db60f00065b0f800b6d9f000db60f00065b0f800b6d9f000db60f00065b0f80;
   0x90092492400492492000000090092492400492492000000400000002000000090000000400000002000000090000000400000002000000090000000400;
   0x20820000020000000024000000000000000000000000000000000000000000000000000000000000000000000000000000000000000000000000000;
   0xb00000124900000b2000000092000000000000000000000000000000000000000000000000000000000000000000000000000000000000000000000000000;
   0x1fe000000000000092000000492400002400000000000000000000007c00000000000000000000002c00000000000000000000002c00000000000000000000;
   0x36d80012492400016d80000092490002490000000400000000000002ff6000002d80000002000002db6000002c80000002000002db2000002c800000000000;
   0x7ffc000924920001b6c0000249248001248000001240000009000003fff00000bfc000005f0000036db00000b6c000005b0000036db0000036c000001b0000;
   0x7ffc000000000000924000024927800124900000924000004900000ffff00000ffe00000ffe0000ffff00000ffe000007fe0000ffff00000ffc000007fe000;
   0xb6da00124924004b6db20005b65b601249240001249000009240001ffffc0001fff00001fff80016db6c00016db00001b6d80016db6c00016db00001b6d800;
   0xfb2c00092490006fb6fb0012d92c900924900000924800024920001ffffc0001fff80003fff8001b6db40001b6d80002db68001b6db40001b6d80002db6800;
   0x6804000000000027fff900160b24900924900000924800024920001ffffc0007fff80007fffc001ffefc0003fff80003fffc001ffcfc0003fff80003fffc00;
   0xb24a00024920005b6db6002c9249241249240001249000049248003ffb7c0003ffb80007fffc0016db6c00036db00005b6d80016db6c00036db00005b6d800;
   0x496400092490000db6d80010492c900924900004924800024924001fedbe0007fed80007ff7c001b6db60005b6d80006db6c001b64b60005b6580006db6c00;
   0x480400090010000c92580010012e900900100000000800024824001fedbe0007bed8000fff7e0019249e000792580007d93c0019249c000692480007c93c00;
   0x32480016c92c00196d96016c92db2412c9240001649000049248003edb6c00036db8000fb6de0016db6c00036db0000db6da0016db6c00036db0000db6da00;
   0x92000096590000c92ca2032092c920965900004b2c800024924001bedbc0005f6d8000edb6e001b6db40005f6d80006db6c001965940004b2c80006492c00;
   0x12000086198000cc3882030013e920861800000e0c000026184001feffc0005f7f8000efbee0019e5900004f2c8000679ee0019e5900004f2c8000669a400;
   0x2c00002492c10096596032c92db24124924120124900904b2c8001edb6c12036db4090db6df0016db6c12036db0090db6db0016db6c12036db0090db6db00;
   0x12000092490580c924a20364b24920924900800964800024924121b6dbc0801b6d8000edb6c120b6db40801b6d80006db6c12092490080096480006492c12;
   0x804104804100820324924920804000000020024020804100f7fbe0001beda240fdf7c10092c92000096482006492c10092492000092402006492c10;
   0x925b00024920b6092492032db6492402492090012492080492492406db6d90016db2080fb6df2406db6590016db2080db6db2406db6490016db2080db6db24;
   0x492c00012480d804924220324924920124800800924100025b2490036db2c801b6d1000fdb7f90036db0c800b6c10006db6d900165904800b2c100065b2c90;
   0x4024800024004800120020324924900024000000120000020b240001ff80c000ffc1600fdf7e80016d804000b6c12007df3c800124804000924000074b3c80;
   0x1925900005b01b6012c82032c92492400490080002482400492492002db61b0006d82c00fb6ff6002db61b0006d82c00db6db6000db2180006d82c00db6db60;
   0x2c92480002400d80012012432492490002402400012012002492480006d82c00036c36007db7db0006d82c00036c36006db6db0002482400012412006c96c90;
   0x4924800000004800000124324be490000000000000000002000000003c02c0003f8360061f2db0002402400012012002092c90002402400012012002092490;
   0x1b6c900004900b6092490582c96d920024920900124924005b2d920025b25b0016d92d005b6db60025b25b0012d92d005b6db60025b24b0012d92c005b6db60;
   0x2d92480092490580592d820324924900b24b0400d92592016c96c900b6db0d00db6d96016db6db00b6db0c00db6d96016db6db00b65b0400d92592016d96c90;
   0x2492480002c00002492482032492480092092402492492012592590093c924024964960124b25b0092492402492492012592590092492402492492012592590;
   0x1b25b60125b24305b6db6402492492036cb6db05b6db6d82db6db6036db6db05b6db6d82db6db6036db6db05b6db6d82db6db6036db6db05b6db6d82db6db60;
   0x2c96d80492c92002db65920304924805b65b6d82db6db6016db6db05b6db6d82db6db6016db6db05b6db6d82db6db6016db6db05b6db6d82db6db6016db6db0;
   0x2412480000c00002492492030492400492492482492492012492590492492482492492012492590492492482492492012492590492492482492492012492590;
   0x192db00924924b05b6db6402012480036db6db05b6db6d82db6db6836db6db05b6db6d82db6db6836db6db05b6db6d82db6db6836db6db05b6db6d82db6db68;
   0x2000000000002492492010000000492492482492492012492490492492482492492012492490492492482492492012492490492492482492492012492490].
Definition emoji_rows_84 : list N :=
  [0x2000000000000000000000080000000000000000000000000000000000000080000002400000000000000000000000000000000000000092000;
   0x5b01b6002d80d80012016c005b01b60000b60000000004000b60000005900000124924800b6c00000db6000016db6d800300000005900000025b00000b6db00;
   0x6d83ff00b6c3fc004901fe007f83ff0002db0000000002002ff0000016d80000092092402ffe000016db00000b6db6c00580000016d800000bffb0002db6d80;
   0x7fc3ff00ffc3ff000007fe00ffc3ff0003c9e000032002003ffe0000124800000be000003fff0000165900000fe492402db00000124800007ff5fe003ffff80;
   0xdb65b6016da6db0092436580d965b60005b6c00016d82d805b6d80002db6000036d924905b6d80006db6800036db65b0db6d80006db60000b6db6c805b6db60;
   0x16d864b00b2c3258049069301e4a64b0006db60005ffc12407fffc00036db00007ffc00407ff7c000b6db00007fff92c16db6c000b6db00000b7fb2006db6db0;
   0xa4c201009242010000040300800201000749e0007fff9201ffffc000124900007fff80007ff7c000965900007fff82416db6c000924900000f7df001ffffff8;
   0xdb6496016d86c900b2432500c96496000db6d800b6db0400db6d80006db68000b6db2490db65a0016db6c000b6db65b2db6d80016db6c00016db6000db6db6c;
   0x6d82490092432400490492002482490016db6800ffef8201ed93c000b6db0000ffef9041e592c000b6db0000ffef92c16db6c001b6db00001ffff2012492490;
   0x2c8200001240200008001000040200001ffff800ffe78001c000c00097c90001ffe7d000e400c001b65b6001ffe7d241ffc7c000927900001ffff8010000000;
   0x5b0092002d82480012012400490092006db6db01b6cb6080c92586016d96c001b6cb6490cb2ca0036db6c001b6cb65b0db25800164b6c00016db6c024924924;
   0x2c004800160020000900100004004800fed93f00c92580c18490c0019249c000c925b240649e400196d94000c92592c1ec92c000965900001924ba030000000;
   0x4000000120000000000000000000000f8013f01c800c0c18410c10090018001c800d200641840009e1d8001c800c2418410c000865c000019001a030000000;
   0x5b0196006d82cb00b2c12c00590196006c925b01965945b0c92492016c92c00196596490c92480016cb6c001965964b0c92c800024b6000012cb2c02c924924;
   0x6d824900b2c124005940920065824900b2cb2c00cd2c80c10080980096590000cd2c9240649240009e5f0000cd2c92412c92c000925b000019e592032492490;
   0x2482490092412400492092002482490030410c00c80080000080000080098000c8009200208040009e198000c800924084108000004f0000080010030000000;
   0xdb64b6016d82d900b6c16c805b24b6000c92580092490080492492002492c00092492490492480002492c020924964b0c92480002496000012492802c964b24;
   0x16d804900b64124005b2492002d80490002492000c92480002492490092490400c92492402492000092490090c924b6c024928000124a20000924900324d2490;
   0x124804800920024000900900024804800000820004100800004900100004104004100920000900000004100804100924000800000024070000800100100c0600;
   0x5b24b6012d90d900b6096c805b24b60004924000124900000b6412002492082012492490096492402492016012496db04924000005b2d80002492002c964b24;
   0x12d904800360924805b0090012d904800024b0000092400000490080012480c300925924000924920124800800925b6c00490000012486c00016480016492490;
   0x12490480012012400090090002480480000480000012000000000000002400c3001219200008000200240008001249240049000001009fc00002400016002000;
   0x25b00b6412d90d80036096c825b00b6400592c000124800000920120004900b6012492490596db6c004900100324b6db0092490016c96db0000490002492c920;
   0x12d80d80036016c001b00b4002d80d80006496000592c00002092080002400580012000416c924920024801000925b6c004925801b24b6d80002400000492490;
   0x24004800120024000900900024004800064160007804800000800000000005800000800124920900100800000004924004925900b00b6f80080010000010000;
   0x5b00b6002d80d80036016c005b00b6002d92d800b64b6c024b6492016496c301b24b6482d96c96c16c96c30092492d82db65b64b6c96db6036c96c02412d900;
   0x2500c80032006c001b0090002500c800165964025f6c960121825b00b24b2182c125b0036c924905b24b6402412490036c925905b65b69a07f65fe000096480;
   0x200048001200040009009000200048001e5974004b24920001805b00b24b0186c005b00124920904924920000020000124924904961929f07f2dfe000002000;
   0x1b0094002580c80032016c001b0094006db6db04924925824964b6c96db6cb05b24b6002d96cb6cb6db6db0492492006db6db64b6db6d960b6db6d824024900;
   0x2100c80032004c001b0094002100c80096496402496492c12082db6482db2186d925b00324924905b6db64024924900b65925b07b65b7900ffedf6000012000;
   0x3380cc003301cc007b00de003380cc0006496002002492400082492096db0186d825b0000492490492492000000000012492490792497900ffefff000000000;
   0x5b0196006582ca0032c16c005b01960024924904924924824904924124924904924920024924920924924804924920024924920b24925900b6db65000000000;
   0x92000000000000000000000010000000000000002400000000000000000000002000000400000000000000000000000010000000000000000000000400400;
   0x5fec0000000000000000000041000000000000001ef8000000000000048000001f0000027800000000000000000000000bc400000000000006000003f80f80;
   0x1b6db00000920000924900000b6c000005b6000016db60000000000001b6400000d800005b0000000092000000000000036da00001b6000000d800007fc1b60;
   0x2db6d80002490000492480000db0000007ff20001b65b0000480000007ffe00001e000007e80000002490000000000002fffd80006db200001f80000ffc3ff0;
   0x7fffff000000000000000000049000001fffe0001b25b8000db0000007ffe00001e000003c00000000000000000000003ffffc001249200001e00001ffc3eb0;
   0xdb6db68004924000924920001b6c00002db6d80036cb6c005b6c00000db6d80000c000005900000024924800004900005b6db6002db6d80000c80000db65920;
   0x16db6db0002492002492480012db640003ffffc007b65b6006db600001ffff800002000002400000012492400012480003ffffc0036db6c0000200001edc6490;
   0x1ffffff8000000000000000017dbf4800fffffe00792496006db600001ffdfc00012000002400000000000000000000007fffff009249240000000000ffc2490;
   0x2c92492400492400092490006db6db0016db6db0036db6c00db6d80002db25800b6c000001b0000002492490002492000db6db6016db6db0002c00000db64920;
   0x10000000002490000492400036ff6c001ffff7f801ffdf8016d96c0001ec93c00096000003c8000009249240009249001ffffff00b6db6d80016000006d82490;
   0x100000000004b0000090400012db24001ffff3f801fe4b8016482c00018003c00092000003c8000000000000000000001ffffff0096582480012000003f80400;
   0x24924924004924000924900005b6d80016db65b0036c92c00c92580002c92580002c00000190000012492490012492400db6db6816db25b0002c000001b00b00;
   0x324924900024900004924800024924021f3c92f80192498016492c00012cb28000b6000000c8000009249240009249001ffbe5f01b2c92d80032000002c00480;
   0x300000000000800000c30000004104021f2000780198198010410400010c10800032000000c0000000000000000000000ff900b0092000480010000002c80480;
   0x2c924924000960000965900004b2ca20164924b0012cb2800cb2c80000c92580006d920001b6d80012492490012492400cb24960164924b0002c80000db65960;
   0x324924900004900004924820024924221d2492780192590012492c000124920000bfdb0000fb7c000924924004924920064924b0192492580036400016d82490;
   0x300c04000000800000000020000000021c3018380180010000000000000080000036c90000d97c00003018000010080006180c20083018100012000002480480;
   0x2c964b2400092400092c90d804964a2016592cb0012592000c92480000492400016db60000b6db0012592c90092c92400492592016592cb0002c00000db64b60;
   0x324d2490002496000492416c02492422193c9a5000924900024920000024900005b6fb0000df6d80093c9a400492592002592c90093c9a500016080012db0490;
   0x180804000000120000000124004100020800101000000000000000000004900004b7db0000ffc4800000100000100800000800000800100000160000124b0480;
   0x2c92492400c96c80016d80d800b64220164924b00024b00000b2406c00092000092592c001b6c300024924900124924004924920064924b0002d820025b20b60;
   0x16496490012492000096416c00590022092592400012c800005b00be002490000cb2cb0000db6180012592400092c90002492480092592400036010012d90d80;
   0x1200001049200001001240008000204008040000000000000007a00301e000c30c90000ffe180000080000002400000010000000080400016000012490480;
   0x2492492002cb6480002480d80012012c06492480002492000092002c02d92d80196db2c001b6c16c024924800124924000924900024924800165804025b00b60;
   0x492480016d92400092016c024920b00124920004a241200208203203ec97c008b6c96002dbe1f00124920000924900004924800124920000b2c00002d80d80;
   0x1240001249240009200201241240000049000048001201f007c3003fc13c00092c97c00c9e0f0000490000002400000092000000490000082800002400480;
   0x2412d90002d92580496d92582db6db20004b6400092492402d92db2006db6cb01b61b6d80cb6d920004b64000025b2000096c900004b64000305800001b00940;
   0x92400016496c024b64920165b6c30002490000492c9203fc97fa00b7db2500c10cb6010492800002490000012480000092400002490000582800002500c80;
   0x124924000160020125b2410000000000003c000ffc1ffc00b3c90000403090010492400000000000000000000000000000000000602000402000480;
   0x2480002c96d80492c92006db6db2000092000092592406db2db2016db6cb00b6d36002c365800000920000004900000024000000920000305800801b00940;
   0x104b6002492492096db6cb0000000000493c920f7fbfc800965b65001b61b00101b2400000000000000000000000000000000000183c00402580c80;
   0x2002492000000000000002400012492400092492400090080010080000000000000000000000000000000000000002400002080480].
Definition emoji_rows_85 : list N :=
  [0x800000004000000120020000000000004000000004800000000000000000000004000000924924000800000024800000924924000000000000000000000000;
   0x3f804800360020005b009000240048003e002000016d800000000000024000000160000004924900024000000b6c000024924920020000000120000000b6000;
   0x7f800000ffc000007f80000000000000ffc0000001e5800000000000000000000924000000000000000000000b24000024924920024000000920000007ffc80;
   0xffe092006d824900b6c12400490092016d82490002db6000012016002492000016da00004924924024920000b6db0000592db6c02db2000036db0000db6db60;
   0x1fde24900b6c12400d960920024824900f6c124000b6db00004900900124900001b6c000024900020124900005b6d80002492cb60b6db00005b6c00006ff6490;
   0x1fdc00000f2c00000c960000000000000904000000f24f00000004900000000004924000000000000000000004b24800000004121b6db0000492400000dffd00;
   0xdb6492016d824900b6c124004924920124a2490016db60004924964124924000b6db00004924924024924000b6db0000492496c16db6c001b6db00000b6db20;
   0x1edc24900b6c12400d960920024824900924124000b6db00024920900924900005b6d80002492402092490000db6d800024924b61b6db0000db6d80000fb7f80;
   0xffc04800924024004900900024004800904024000f6df0000000000000000000492480000000000000000000cb2480000000412092490000497480000ffff00;
   0x5b40b2006d825900b6c124004900b2002482590016db6c004924820124924800b6db00004924b24024924001b6db60004924b6c124924001b6d900000b6db20;
   0x2d804800360124004900900024804800120124005b6db6012492400092490400492580012492402092490002db6d800124924b6092490002c96c80000496480;
   0x2e00480016002000090010000400480012002000e92497000000000002080000400400000000000006080000492c80000000012000000002483c80000000000;
   0x5b0090002c804800160124004900920024804800b2492580492482c12c924300924900004924b24024964000965b00004924964124924000965b00000924920;
   0x2d824900b6c124005900920025824900b2c12400c96596012492436092490500492c80012c924120124900005f3c80012c92482096590000492c80000492480;
   0x2c8249009241240049009200248249009241240061c1860004180100000000000c3c00000c100000004000001e3c00000c10402006180000403c00000083000;
   0xdb65b6016d82db00b6c36d80db65b6016d82db0032c92c00492c80c02492000096590000492cb24024b2400096590010492cb6c02c92000092db00000925920;
   0x16d824900b6c124005b2492002d824900b6412400092490002492000012492400492480002492412012490000492480402492492092490000492c00000492400;
   0x12480480092402400492092002480480012002400002400000080000000000080010000000080000002080000090400000080492000400000000400000010000;
   0xdb64b6012db2d900b6496c805b24b6012d82d900025920004964800025b2490012c90c204924b24005b2000012c900904924b6c024920000165a6800092c900;
   0x12db04900b60924805b2490012d90490036092480012480002492000002c80400092410402492012002492480092400402492db60124800000b64b0000492400;
   0x124904800120824000900900024804800120024000024000004900000004000000920104004920000004924800920000024924920024800000924f8000092000;
   0x25b08b6412d90d80036096c825b00b6412d90d800025b00000b6400000490090012c80cb04b65b2400492492012c801804b65b6c005b00000b24b6c00016c800;
   0x12d90d80036096c821b00b4012d90d80036016c80012480002496000002400400012016c02492012092492480012002402496db6002492000d92db6000092000;
   0x24004800120124000900900024004800120124000f24b0003c16000000000000012006c00410000092492480012002002412492002492400d8059f000012000;
   0x5b00b6002d80d80036016c005b00b6002d80d80016cb6000592c900124b2490092490580492492436cb65b60924905004925b6c025b2db05b64b6d800924900;
   0x2580c80032016c001b0094002580c80032016c000f24b0007c96d80492c12480492582016082c905b6492482c925820120824920b6496c82d92db6c02f92f80;
   0x24004800120024000900900024004800120024004f24f2007f92480002c02480400582036002c00492480482482482000000000092492402582c93c07f92fe0;
   0x1b0094002580c80032016c001b0094002580c800b6db6c025b2c96092592db64b6db2186d925b0036db65b05b65b6402492490036db6db25b65b6db0db6db60;
   0x2100c80012006c001b0090002100c80012004c004f2cb20124b2490492c16d824b6d920b6492d805b2492486d96db20124924005b2c92c86db2db2c07fb6ff0;
   0x20004800120004000100800020004800120004000f24f0000082490000c16d80436d820b6412d80492492482492492000000000492492c864924bb00ffd3ff0;
   0x5b0196002580c80032816c005b0196002580c80096db6402496492c92492db64b6db2186d92db00325b6db05b6db64024924900b6db6db05b6db6d80db6db60;
   0x2080480012010400490092002080480012010400092490000092492000412480492482092412480402492402492492000000000492492402492492002492490;
   0x480000000000000000000002000000000000000012000000000000000000000000000000000000000000000000000000000000000000000000000;
   0x16c800005b6c000005800004924800005b0000000000000036d800000000000004800000120000024800000000000000000000000900000004800000020000;
   0x2dffd80016db6c00016d80012492400006d80000002400000db6d00000000000012400000090000032000000002400000000000002490000016c00000090000;
   0x7ff2ff003ffffc0003ff80000000000012480000000000000d92d80002400000000000000000000030000000000000000000000000000000012480000000000;
   0x5b6db6006db6db0006db6002492480002db60000124920001b65b4002db0000002492000012000002480000012492000002400002492480016db60000120000;
   0xdfed800b6db6d800b6d80012492400016d80000092490002d92d80036db00000924900000100000320000000924900000920000124924001b6db0000090000;
   0xfbef000ffffff800ffdc00000000000b24b2000000000003d92dc0036db0000000000000080000032000000000000000000000000000000492492000000000;
   0xb6db2016db6db4006db60004924800b6db6d800924924005b6db6016db6c000124924000960000025800000924924000124800024924900b6db6c000120000;
   0xffff801924924800b24a00024920005bfff6000492492002db6d800b6db0000092490006cb0000036000000492492000492400092492400db6db6000080000;
   0xffff801000000000d24800024920000bfff20000000000025ffc800b6cb0000000000000c90000012000000000000000000000000000000492492000080000;
   0x1b6db2032492492006db6000492480016db6c00092492480092490016d96c00012492400096000002c800000924924800924900124924901b6db6d800360000;
   0xd925801800000000124800064928000b6db40004924920004924801924940000965900005b0000016400000492492000492480092492480db6c96000190000;
   0xc9258018000000001248000649280009249e00000000000008200009009000001e18000048000001a000000000000000000000000000000492016000080000;
   0x1b6db20324b6d92002db0000db6d80016db6c32092492480096590016c92c00012cb20000b6000002c924000924924800924900024924901b64925800360000;
   0xd93d80192492480012480002c92c000965960104924920004934800965900000924900005b040001edb6000492492002492480092492400c92492000590000;
   0x4924801924924000024000024928000924920100100800000820000860900000024000007fe40001ffbe000010080000080000000010000410082000082000;
   0xb6db0032db6db0000580000db6d86806db6c32092c92480092490012492c000025920000b6db0000db6c00092c92400492592002592c90192c925800360800;
   0xc92580192c964800024800024928b0092c920104925920004924000924900000124800005b6d80016db6000492592002592c90093c9a400c925920005b0c00;
   0x492400192c964800104800024920900124920100100800000100000004100000024000025ffc80007ff6000010080000180c00003018000c10082000080400;
   0x36d80036db6db00164b60005b6c16c02db64320924924000124800024920100025b00005b6db0000db4580092492400492492002592c900924925000360000;
   0xb64001924924800925900024b21b601658201049249200009240001248058000240000659058001ef82c00492492002492480012492400c924920001b0000;
   0x9200019249240009049000049009200248200000240000009200000240078001008001841808001fff24000024000000100000000800004024020004b0000;
   0x16c80012db6db0016cb24000b6016c005b01b60125924000024800004900b6006c96000cb6cb6000db6180012592400092c900024b64800925924000b6c000;
   0x92000012492400196c900004900b6002400c800924900000920000024005a00f25b001259698001fff2d800924900004924800124920004924900005b0000;
   0x4924000024924000924900004900900024004800024000024104800104101805f24b201059419001edf0f80002400000082000000410000002400000430000;
   0x5b6db60925b6d80016c924004b6c86c16db6c30012db20005b24b6016496c300b6cb6c008b2c96c16db60b0012db2000096d900004b6480012db2000182c020;
   0x7fb6fe00025b24001b24900125b24304b6db2000092c900024104807f04fe4007b6592012492df0186590400092c900004b6400002592000092c90002c30010;
   0x7fb6ff00004920000924900005f0010492d920000024000000180007f84ff4007be482008492580182490000002400000010000000080000002400006030000;
   0xdb6db60100b6c000165b6c024b64920b6db6db0002490000492c920b6c96d800b6db2580c82490010592c00002490000012480000092400002490000502800c;
   0x6fb7ff0000090000192db00125924304b2cb240000240000249e4907fe5fe400db6d82006cb2500182590000002400000012000000480000002400002030006;
   0xfff7ff000000000008249000008001049249200000000000003c0007fe7fe000492482003d82400182c1000000000000000000000000000000000000303e002;
   0xcb6db6000000000000490002492492092492490000000000492c920b6db6c800924924000b0080010082000000000000000000000000000000000000082c000].
Definition emoji_rows_86 : list N :=
  [0x10002000080010000400400000002000080010000010000000000000000000000080000000000000012000000090000002492480000000000000000;
   0xb000003e017c001f00f0003c00f80000017c001f00f00000b60000000004000b20000000800000000000000be0000004b0000012492480000000000080000;
   0x16c00007f82db00b6c36c005b41b6002482db00b6c36c00016d800000000b0016d800000b6c00002492492016db00005b6c00002db6db6012c000001b64000;
   0x1b00000ffc36d00db65b6006d82db0092436d00ffe5b60005b6c00002c004005b6c00002db6000016c800005b6d80002db6000016db6d905b6c00002db6000;
   0x1f00000ffc3e700ffe7f700fcc3db000003e700f9e7f7000792c0001ff824807fff8000249200001ff800007fff800024b200001ffb24805b6c00002492000;
   0x1600001ede6db00b6c36d80db65b6002486db00b2c36d800b6db0002db65b60b6db00005b6d00006db64920b6db6000db6d80006db6cb61b6db6000db6d800;
   0x900000b6c32500db6492012482490092432500c96492000db6d000b6db2480db6d80006db60000b6db2000db6580006db68000b6db6d92db6d80016db6000;
   0x800000f7c32400d94492002482490012032400810492000f92f800ffff0400ffe7800024920000ffff2000ffe5c00024b20000ffffe480db6d800124b2000;
   0x16000006d82db00b6c36d00db65b6002482db0092436d001b6db0016db6ca01b6cb6000db6d80016db6c920b6db6000db6d80016db6cb61b6db0002db6d800;
   0x1800000b6c124005b00b20024824900120124004900b2002db6d801b6cb4400c92580012db2c001b6cb6000c924a0016db6c001b6cb6d90db6d80016cb2c00;
   0x8000003e012400490090002480480012012400080090007ffffe01f6cbc080c8008001ad92c001f64be000c924c0016cb64001f64be480ff25800124ba000;
   0x36000002d80580016006c001b00b0002c00580016006c00db6db6016db6c10196594000db6d80016db6cb20b6db6000db6d80016db6cb61b6db4002db6d800;
   0x1900000160024000b009000240048001200240009009000ec925f0192494180c92c82016492c00192496400cb2c80016cbec00192496c90c92580012cbe000;
   0x90000016412400490092002480480012412400410092007c935f0096598180c8009201ac92c0019659a40049248001bc3ec0019659e400cd3c800024be000;
   0x36400016d82db00b6c36d00db65b6006582db00b2c36d005b6db6016db6c16092490000db6d80016db6cb20b6db4000db2c80016db6cb60b6db0000db6d800;
   0x5b20000b6c12400db6492016d824900b6c12400db6492002c92580096590080c92480002c92800096592400496480002c96802096596490c92c80002496000;
   0x80000092412400492492002482490092412400490492000492480092490080492492002492800092492400092480002492802092490000492480002496000;
   0x36080016da2d900b6c16d80db24b6012d82d900b6416d800b6db0006db6800036db24805b6d80406db6cb2016db00005b6d80406db6db60b6db00005b6c100;
   0x1b04000b6412480db2492012d824900b60124805b2492000492400092c900000b24120024920820924924000b6c00002492012092496d90492480002496580;
   0xb0000192082480092490012490480012082480090490000492400012480000092412002492082012492400012400002492002012492480092400000490f80;
   0x36010012d90d901b6196c825b24b6412d90d90036096c80016d80002db6000002d804001b6c10402db64b20024924b01b6c02402db6db6016d800000b6cb00;
   0x5b0000136196c821b00b4412d90d80036096c801b00b44000b6000012c800000120120005b0086012c924000124924005b0010012cb6d900b6400002c96d80;
   0x4b0000012092402090090002490480012012400090090000092000012480000012012000490096002492000492492400490010012492480012090016496fe0;
   0xb2c00012d90d80036096c825b00b6412d90d80036016c800b6db0006db6000092c924000b6006c025b24921b6db2d800b64020025b6db6006db6c82db6db60;
   0xc30000032016c001b0094002d80d80032016c001b0094000c927000f2492002412492002492030092412482d92492402c92030012416d800b24b6416c96db0;
   0x430000012002400090090002400480012002400090090002e927800fe4b64000160000064920100b24360024924124124924200024024804924ba412c964bc;
   0x582c00002d80d80032016c001b0094002d80d80032016c005b6db6016d96db0492c96d82d92592836596d905b6db2d82db6db20125924905b6d96d86db6db2c;
   0x6030000012006c001b0090002500c80012006c001b0090002c92790496d925824964b6c16db64105b2436002d92492436496d20492492002d964924b6cb6d96;
   0x6030000012000400090090002000480012000400090090002e927900024024800100b6c067fe0105900160024924120124924200004000024924964724b2596;
   0x502c00402580c80032016c001b0094002580c80032016c004b6db20b24b2496492c96db2cb6d928b6c96d805b2db6d86db6db20924924805b6db6d86db6db24;
   0x203e002032016c005b0096002580c80032816c005b0096002c92790492c924824904b6c165b64105b65b60024924920b6cb6da0492492006d924960f6db6f90;
   0x12000012010400410082002080480012010400410082000400400000000000000000002492010490092000000000012412400000000000000000010000490;
   0x100000025900000000000020820000020000000000000000b60000000000000000000000900000020000000000000000000000000800000000000;
   0x4800000005b00000b6d800000b00000124900000b2000000000000002db60000000000000b2000000d800004b0000000000000000000000012c80000000000;
   0x490000017ffe0000ffff00001fe0000000000000920000000b6000006cb60000000000001fe000000f800007f000000000000000000000003ffc0000092000;
   0x5b6c00016db6db0036db6c00036d80012492400016d800000b6d80002db6d80002c00000036d800001b0000036000000092480000000000016db6c000b6d800;
   0x6db60000b7fb24005b6db60005b6c000924920001b6c00000db6d80036c96c000b6400000db6d00000c800005b00000004924000000000001b6db4000db6c80;
   0x12492000017ffe0007fffff0007ffc00000000000092400003ffff80036c96c001b6c00000ffff800004000003900000000000000004900003ffffc002492480;
   0x2db6d80000db6d800b6db6d800b6da00124924004b6db20005b6db6002db6d800b6db00001b6db00000800000320000004924920001b6c00036db6c005b6db60;
   0x16db680001fdbf000db6db6c00db6c00092490006fb6fb0006db6db0032492c00db6d80002db6d80010c000000300000024924800024920005b6db6006db6db0;
   0x124b200001ffff000492492000792c000000000027fff9000ffffff0037ffec00db6d80003ff27800ba400000190000000000000002492000fffffe002492490;
   0x2db6d80000db6d801924924800b6da00024920005b6db6000db6db6002db6d801b6db40001b6db0000db0000036c00000492492000db6d800b6db6d80db6db60;
   0x16db6c00016db6c020000000005b6c00092490000db6d80016db65b0016d96800db2580002d92580002c00000190000002492490012492000db6db6816db65b0;
   0x12cbe00001ec93c02000000000492400092490000c9258001fdf25f001e493800c92480003c92580002400000190000000002400012492000ffffff812492490;
   0x2db6d80002db6d80592492480036d80016db6c001b6db6012db6db6802db6d801b6db40001b6db0000db0000016c000004925b2002db6d801b6db6d82db6db68;
   0x6db6000016db6c02cb6db64001b6c000b6db0000db6da20165924b0012cb2800c92c80000c92580006c000001b2480012492490012492400db2c960164924b0;
   0x24be000012cb200309249200009600009e598000cf3c8201e4924b0012cb2800cd3c80000c92480006c800000b6dc0000492480012492400c92493016492490;
   0x5b6d80000db6d80596db6d80016d00006db6c100b6db6032db6db6802db6d800b6db00000b6db00005b6c00016db60005b6db2006db6db00b6db6d02db6db60;
   0x2db6000016db6002cb6db64000360000b6db0580db6da2016592cb0012492000c92480000c92500006db60000b6fb0002592c90092c92400492592016592cb0;
   0x2496000002592003c964f2000012000092c9048049658201e592cb0002492000492480000492400017cb60000d7f90002592c80093c9a400492592012592c90;
   0x1b6cb0000db6d00196db6d800b2db0006db60b60b6db2030db6db6000db6d000b6db0000016d80002db6d80016db60005b6db6006db6db00b6db6c00db6db60;
   0xdb4d80002db6002cb6db6000492c00036db0d805b6c22016592cb00024920004924020000b64000b6db68000b6c30002592c80092492400492492016592cb0;
   0x490f80002db0003c92492000402480016d804800b64020064924b00024900000924030000920000821920000ffc30002492480012492400492492002492490;
   0x5b6db60001b6c00196db6d801b2590000db41b6016d82030db6db60000b6400016d805b0016d80010c30d80016db2c005b6db2002db6d80016db6c005b6db60;
   0x16db6db00005b00004b6db6002d92480006d80d800b60124064b64a0000490000092007c00792c00186492c001ffe160024b6480012592400092c900064b6480;
   0x16c96df0000490000092492000492480002400480012012402492480000490000012003c00f92f80192cd24000ffe16c02492480012492000092490002492480;
   0x2db6db6c004b6480496db6c001b6c900005b00b6096d905801b6db0002cb6590092c901805b6db60105b69b0036db0d800b6db0000db6d80016db60001b6db00;
   0x36db6db403edb7c00036db6002d92480096d905805b6d820004b64800b2082402f92782007f92db0192492d804b2d960004b64800125b2000096c900004b6480;
   0x12c9649e03fcbfc00012d90002492480002c000024b6482000492400000080403f807f2007f9249008009af00812580000492400002492000012480000492400;
   0x6db6db2c06db6db0482db60001b25b60125b24305b6db6400036d800024b64905b24b6400db6d92016492d90186d90000036d800005b6c00002db6000036d800;
   0xf6db6d960ffdbff00006d90002db6d80492c92002db6592000092400012582407f92ff6006db6c100805b2002836080000092400002490000012480000092400;
   0x724927900ffcbff00002480002492480000c00002492492000012000000180007fc3ff0002492410030632003c32180000012000000480000002400000012000;
   0x6db6db2016db6db0000080000196db00924924b05b6db64000000000024b6490db6db6c00db6d96002d82c00182c340000000000000100000000800000000000;
   0x12492490092492400000000000012000000000002492492000000000000080002492492002492490002010000012080000000000000000000000000000000000].
Definition emoji_rows_87 : list N :=
  [0x80000000000000000002000000000000000000000080000000000000000000000000000000000000080000002400000000000000000000;
   0x20000000b000003e016c005b01b6002d80d80012016c005b01b60000b60000000004000b60000005900000124924800b6c00000db6000016db6d800300000;
   0xb6000000d800007fc1b6006d82db00b6c16c004901b6007f82db0002db0000000002002db0000016d80000092092402db6000016db00000b6db6c00580000;
   0x492400000f80000ffe3fe007fc3ff00ffc3ff000003fe00ffc3ff0003c9e000012002003ffe0000124800000be000003fff0000165900000fe492402db0000;
   0x1b6db00001b00000fec36d80db65b6016da6db0092436d80d965b60005b6c00016d82d805b6d80002db6000036d924905b6d80006db6800036db65b0db6d800;
   0x2db6d80000d80000fb65b6016d86db00b2c36d804905b601e486db0006db60005b6c12406db6c00036db00005b6c00406db6c000b6db00005b6d92c16db6c00;
   0x2492480000400000fbe69300a4c249009243250000069300800249000749e0007fff9201ffffc000124900007fff80007ff7c000965900007fff82416db6c00;
   0x5b6db60000900000b6c36d00db65b6016d82db00b2436d00c965b6000db6d800b6db0400db6d80006db68000b6db2490db6da0016db6c000b6db65b2db6d800;
   0x6db6db0000c00000db45b6006d82db0092436d004905b6002482db0016db6800db6d82016db6c000b6db0000db6d90416db6c000b6db0000db6d92c16db6c00;
   0x124924900024000005f80b2002c825800124124000800b200040258001ffff800ffef8001c400c00096c90000ffef9000ec92c001b65b6000ffefd241fff7c00;
   0xdb6db60001b0000036816c005b01b6002d82d80012016c004901b6006db6db01b6db6080c92586016db6c001b6db6490db6da0036db6c001b6db65b0db6d800;
   0x16db6db0002c000001b00b0002c00580016006c000900b00004005800f6db6f00db6d80c1e492c000b6db4000db6d92406fbec000b6d94000db6d92c16db6c00;
   0x124924900024000000f00100004004800120020000800100000004800fa493f00c92580c18490c10092498001c9259200669ec0009e5d8001c925c241e492c00;
   0x2db6db68005b00000b6c16c005b01b6006d82db00b2c16c005901b6006db6db01b6db45b0c92d92016db6c001b6db6490db6d80016cb6c001b6db64b0db6d800;
   0x16db6db0002d800005b40b2006d825900b2c124005940b20065825900b6db6c00df7d80c164929800b6db0000df7d92406db6c000be5f0000df7d92416db6c00;
   0x124924900024b0000492092002482490092412400492092002482490032cb2c00cd2c80006492000096598000c92c920024b2c0009e598000c92c9240ac92800;
   0xdb6db60005b2c000b6c36d80db65b6016d86db00b6c36d805b25b6000db6d800b6db00805b6d92006db6c000b6db24905b6d800065b2c020b6db24b0db6d800;
   0x16db6db0002c00000db6492016d864900b64125805b2492002d86490006db6000db6d80002db64900b6db0400db6d92402db60000b6db0090db6db6c06db6800;
   0x12593c90002404000c924920124804900920024800904920024804900025920004965800025b2010012c904004925920005b2000012c90080492592402492000;
   0xdb6db60001b04001b6596d80db2cb6812d94d900b6096d805b2cb68005b6c00036db00000b6c12002db6082036db24900b6c92402db6016036db6db05b6c000;
   0x6db6db0002d000021b2890812d904800360924805b0090812d90480002db00001b6c000005b0080016d80c301b6d92400592492016d800801b6db6c02db6000;
   0x24b64800025800020900900124904800120924800900900024804800005b00000b6400000490000012c80c300b6592000080002012c800800b64924005b0000;
   0x5b6db60005b0080136196c825b00b6412d90d80036096c825b00b64005b6c00016d800000b60120005b00b6016d924905b6db6c005b0010036db6db00b6c900;
   0x2db6d800065804021b00b4012d90d80036016c801b00b4002d80d800065960005b6c000025b2080006d805800b6000416c92492006d801000b65b6c005b2580;
   0x2492480012180000090090002400480012002400090090002400480006496000792480000080000002400580012080012492090012480000012492400492590;
   0xb6db0002c30010036016c005b00b6002d80d80036016c005b00b6002db6d800b6cb6c024b64920165b6c301b2cb6482d96c96c16db6c30092c92d82db65b6c;
   0x5b6c000301800001b0090002500c80032006c001b0090002500c800165964025fec960121825b00b24b2182c165b0036c924905b2cb6402416490036c92596;
   0x4924000f018000009009000200048001200040009009000200048001e5974005b24920001805b00b24b0186c105b0012492090492492000012000012492492;
   0x16d80006030000032016c001b0094002580c80032016c001b0094006db6db04924925824964b6c96db6cb05b24b6002d96cb6cb6db6db0492c92006db6db6c;
   0xb60000301800001b0094002100c80032004c001b0094002100c80096496402496492c12082db6482db2186d925b00324924905b6db64024924900b65925b0;
   0x103c00007b00de003380cc003301cc007b00de003380cc0006496002002492400082492096db0186d825b0000492490492492000000000012492490;
   0x36002032c16c005b0196002582c80032c16c005b01960024924904924924824904924124924904924920024924920924924804924920024924920;
   0x92000000000000000000000010000000000000002400000000000000000000002000000400000000000000000000000010000;
   0x2400000003c000005fec0000078000000000000041000000000000001ef8000000000000048000000f0000027800000000000000000000000bc000;
   0xb2000002db0000016db64001b6db00001fe0000924900000b6c000005b6000016db60000000000001b6400000d800005b0000000092000000000000036d800;
   0x2db2000036d800005fedb6002db6d80003ff8000492480000db0000006db20001b65b0000580000006db6000016000007d80000002490000000000002db6d80;
   0x16db60000924900005ffc92007fffff0007ffe00000000000049000001fffe0001b25b8000db0000007ffe00001e000003c80000000000000000000003ffffc0;
   0x2db6d80016db6000016db6400db6db6800fffc000924920001b6c00002db6d80036cb6c005b6c00000db6d80000d800005b0000002492480000db00005b6db60;
   0x16db6c000b6db00000f6db2016db6db0007ffe002492480012db6400036db6c007b65b6006db6000016db6800006000002400000012492400016d80002db6d80;
   0x16db6c000925900000feff001ffffff800fffe000000000017dbf4800fffffe00792496006db600001ffffc00012000002400000000000000012480007fffff0;
   0xdb6d80016db6c00016db6802c92492400fb6c00092490006db6db0016db6db0036db6c00db6d80002db6d800b6c000001b0000002492490006db6000db6db60;
   0x1ffffc001b6db00001ffffa010000000006db6000492400036ff6c000b6db6d801ffff8016db6c00016db6c000b6000003d800000924924000b6db0016db6db0;
   0x1ffffc000b7ff00001ffff8010000000007ff6000400400012db2c001ffff7f801fecb8016d92c0001e493c00092000003c8000000001000009249001ffffff0;
   0xdb6d80016db6c0001edb7c024924924005b6c000b6db0000db6d80016db6db0036db6c00db6d80002db6d80016c000001b0000012496c90016db6c00db6db68;
   0x1edb7c000bedb00001b6dba032492490006db4000db6d8001edb7c021b6db6d801b6db0016db6c00016db68000b6000000d800000924b64001b6db0016db6db0;
   0x1efbfc000beff00001fefba0304bff90003ff0000df7d8001ffbfc021f6492f8019e598012c9ac0001acb28000b2000000c9200001249200009249000ffb64f0;
   0xdf7d80006db6000016db6c02cb6db64001b68000b6db8000df7da2016db6db0016db6800db6d80000db6d80016d920001b6d80012db6d900b6db6c00db6db60;
   0x1edb6c000b6db00001bedb2032db6db0000fb0000df7d8201edb6c221b6db6d801b6db0016db6c00016db60000bfdb0000fb7c00096db6c005b6db6006db6db0;
   0xedb7800037ff00000b6db0030df6fb00007e0000db6d8200edb7c021d3c9e7800924900024920000025920000fec90000d97c00013c9e4004b2592006592cb0;
   0xdb6d80002db6400016db6002db6df64000b64000b6db0d80db6da2016db6db0016db6000db6d800005b6c00016db60000b6db0012db6d900b6db6d80db6db60;
   0x6db6000016da60000b6db0032df6fb00025b60005b6d96c06db64220b7dbed000b6db0006db6000002db60005b6fb0000df6d800b7dbec00db6db6006db6db0;
   0x2fb600001ff8780003ef80018df6fb00060120001f7c12402fb60020d2c926000124800024920000005b00004b7db0000ffc480012c92400492592002592c90;
   0x1b6c00002db6d80002db6002db6db6400d96c80036da0d801b6c22016db6db0002db60001b6c06c000b6000092592c001b6c30002db6d900b6db6c005b6db60;
   0xdf00000b6db6c00017d80016db6db00164920000bec16c00df40220b6db6c00016d80000db00be002db0000cb2cb0000db6180036db6c001b6db4002db6d80;
   0x7f04000b7fb7e00007d00000dbfdb0017c920000be0124007f000205259240000240000049007a003c9e000c30c90000ffe180012592400092c900024b6480;
   0xb6db6016db6db0000db00024b6db6002db6480006d80d800b6012c06db6d80002db20000b6002c02db6d80196db2c001b6c16c02db6d80016db6c001b6db00;
   0x5925905b6db6d80096d900005b6da0016d924000b6016c025b20b0016db68004a2c1200259203203edb7c008b6c96002dbe1f0016db68000b6db0000db6d80;
   0x1249279e4b7db27801f6df80007ffd800124924000b6002012db2400012db200048241201f087c3003fc93c00092c97c00c9e0f0012db2000096d900004b6400;
   0x2db65b6cb6db6db60b6db6c02436db0002d92580096d92582db6db2000db6d00092592402d92db2006db6cb01b61b6d80cb6d92000db6d00006db60000b6db00;
   0x36d924965b6db69b07f6dfe0001b6d80016496c024b64920165b6c30002db6000492c9203fc97fa00b7db2500c10cb6010492800002db6000036d800005b6c00;
   0x12492496692c939e0ffa5ff0000b6c00012c924000160020125b2410002490000003c000ffc1ffc00b3c90000403090010492400002490000012480000092400;
   0x6db6db6cb6db6db20b6db6d80002d80002db6d80492c92006db6db20000b6000092592406db2db6016db6cb00b6d36002c365800000b60000005b0000016c800;
   0xb64925b07b6db7900fbefb6000000000010db6002492492096db6cb0000000000493c920f7fbfda00965b65001b61b00101b2400000000000000000000000000;
   0x480002000492492000000000000000000000002002492000000000000002400012492480092492400090080010080000000000000000000000000000].
Definition emoji_rows_88 : list N :=
  [0x2c000000000000000000000800900004004000120020000000900004004800004800000000000000800000004000000924924005900000024800000924924;
   0x1bec00000000000006000003f80f8003601fc005b01fe002400f8003e01fc00016d80000000000007c00000016000000492490007f800000b6c00002492492;
   0x7ffc0000048000001f800007f83ff007fc1fe007f81fe000003ff00ffc1fe0001e58000000000001ff8000009240000008000001fff00000b2400002592492;
   0x1ffff00005b6c00002f80000ffe7fe006d83ff00b6c3ff804907fe016d83ff0002db60000b6016007ffe000016da00004b6492403fffc000b6db00005bedb6c;
   0x3ffffc0016db600001e80001fde7ff00b6c3ff80d967f7002487ff00f6c3ff800b6db0002ff00900ffff00001b6c00003ff600207fffc0005b6d80003ffecb6;
   0x3ffffc001249240001e00001fdc7ff00f2c3ff00c967f7000007ff009043ff000f24f0003ffe4900ffff8000492400007ffe0000ffffc0004b2480007fff412;
   0x7ffffe006db6d80000d80000db65b6016d86db00b6c36d804925b60124a6db0016db60007fff9641ffffc000b6db0000ffff92407ff7c000b6db0000ffff96c;
   0x7fffff00b6db6c0000600001edc2db00b6c3ed00c967b6002482db009243ed000b6db000ffffc901ffffc000db6d8001ffffc020fffbe000db6d8001ffffcb6;
   0xffffff009249240001000000ffc2ff009243ff004903fe002402ff009043ff000f6df001ffffc001ffdfc000c9248001ffffc000fffbe000cb248001ffffc12;
   0xffffff016db6db0002c000005b41b6006d82db00b6c36c004901b6002482db0016db6c00ffef8201e492c801b6db4000ffefb241edb6c001b6db6000ffefb6c;
   0x1ffffff00b6db6d80016000002d80d80036016c004901b6002480d80012016c005b6dbe01ffb7c0019249c400dfed8001ffb7c020f6dbe002db6d8001ffb7cb6;
   0x1ffffff80965b6480016000003e00780016007c000900f8000400780012007c00ffffff01ffb7c0019659c000ff6f8001ffb7c000ffdfe000c92d8001ffb7c12;
   0xffffbf816db6db0002c000005b00b0002c80580016016c004900b00024805800bedb7d80db6d82c1edb6c301b6dbc002db6db2406fbec001b6dbc002db6d964;
   0x1ffbedf01b6db6d80036000002d825900b6c164005900b20025825800b2c16400fbefbe01edbec36096598500df7d8001edbec120f6db4000df3d8001edbec82;
   0x1ffb6df00b6db6c80012c00002c824900924124004900b20024824900924124007befbe01efbfc100c2418000df7d8001ffbfc000f6fbc000df3c8001ffbfc02;
   0xdb6db6016db6db0002cb0000db65b6016d82db00b6c36d80db65b6016d82db0036db6c00db6d80c06db68000b6db8000db6db2406db6c000b6db8010db6db6c;
   0x6db7db01b7dbed80036180016d864b00b6c325805b2492002d864b00b64325801b6db001edb6c000b6db2400db6d8001edb6c12036db0000cb658041edb6c92;
   0x6fb7df00b7dbec000120800124864900924125804924920024864900120125800f7db000edf7800036fb00805bed8000eff7800017fb00007fff8000eff7c92;
   0xdb6db6016db6db0002c06000db64b6812db6d900b6496d805b24b6812d86d90006db60005b6d80002db64900b6db0c205b6db2400db60000b6db00905b6db6c;
   0x6db6db00b7dbec00036000012db44900b60925805b2c92812d94490036092580036da0006db6000017d804005b6c10406db6012006d924805b6c00406db6db6;
   0x2dbed800b6ff6c0001600001249048001208248009009080249048001208248003ff80002ffe000007f800001ffc10402fff0000024924801ffc00002ffe492;
   0x5b6db6006db6db0002d800025b08b6c12d90d80036096c825b00b6c12d90d80002db00001b6c000005b0090016d80cb05b6db2400592492016d801805b6db6c;
   0x2dbed80036db6c00036800012d90d80036096c821b00b4c12d90d80036016c80016d80002db6000006d004000b6016c025b20120964924800b6002402db6db6;
   0x2dbed80036ff6c000928000024104800120024000900900024004800120124000f3cb0003ffe000003c0000003f006c007f00000924924800ff0020027f2492;
   0x1b6db0002db6d800165804005b00b6002d80d80036016c005b00b6002d80d80016db60005b6c900125b2490096d905804b6492436cb65b6096d904004b65b6c;
   0xdf6d80016ff6000182802002580c80032016c001b0094002580c80032016c000f2cb0007db6d80492c124804b65820165b2c905b6492482cb6d820125b2492;
   0x5ffc00006ff60004828000024004800120024000900900024004800120024004f3cf2007f92480002c02480412582036182c004924804824b6482000180000;
   0xb6db00005b6c000b05800801b0094002580c80032016c001b0094002580c800b6db6c025b2c96092592db64b6db2186d965b0036db65b05b6db64024964900;
   0x1b6c00002db0000502800402100c80012006c001b0090002100c80012004c004f2cb20124b2490492c16d824b6d920b6492d805b2492486d96db2012492400;
   0xb60000005900003038004020004800120004000100800020004800120004000f24f0000082490000c16d80436d820b6412d80492492482492492000080000;
   0x24000000100000105b00205b0196002580c80032816c005b0196002580c80096db6402496492c92492db64b6db2186d92db00325b6db05b6db64024924900;
   0x82400002080480012010400490092002080480012010400092490000092492000412480492482092412480402492402492492000000000;
   0x480000000000000000000002000000000000000012000000000000000000000000000002000000000000000000000;
   0x1b6db6c00400000002c00000016c800005b6c000004800004924800005b0000000480000036d80000000000000580000017800002f800000000000000000000;
   0x2db6db20024000000b6400002dffd80016db6c00012400012492400006d8000001fc00000db6d0000000000001ff800001f000003f800000002400000000000;
   0x2492492016c80000492400007ff2ff003ffffc000124800000000000124800000fff80000d92d8000240000003ffc00001f000003f800000000000000000000;
   0x592d96c16db60000b6db00005b6db6006db6db0002492002492480002db600001fffe8001b65b4002db0000007ffe00001e000002d800000124920000024000;
   0x2492cb61b6db0000db6d80000dfed800b6db6d80012480012492400016d800007ffffc002d92d80036db00000ffff00000b00000360000000924900000b6000;
   0x24924921b6db6000492480000fbef000ffffff800124800000000000b24b20007ffffe003d92dc0036db00001ffff80000800000320000000000000001b6c00;
   0x4924b6c16db6c001b6db00000b6db2016db6db40024920004924800b6db6d800ffffff005b6db6006db6c0001ffffc000960000025800000924924000b6db00;
   0x124924b60b6490002db6d80000ffff801924924800924800024920005bfff6000ffffff002db6d800b6db00001ffdf8006db0000036000000492492000db6d00;
   0x12482492092490002497c800007ffc801000000000004000024920000bfff2000ffffff003ffff800b6db00001ffdf8000f90000012000000000080000db6d80;
   0x492496c12492400192590000096d92032492492002cb2000492480016db6c001ffff7f801fedb8016db6c0003edb7c000b6000002d800000924b64801b6db00;
   0x124924b6092490002c92c800004924801800000000124800024920000b6db0001fffdbf803db6f801b6db40001bedb8000db0000016c00000492592002db6d80;
   0x104104820800900024c3c80000082080180000000000000000410000092492001fffdbf803df7f800b6db00001fefb8000c8000001ac00000082ff0002db6d80;
   0x492cb6412c924000965b0000096592032492492002490000492c80012c924321f6db6f801bedb8016db6c00016db68000b6000002db6400096db6c801b6db40;
   0x12c924b6096590000492c80000493480192492480012400002c92000096592013ff6db7803df7d800bedb00001b6db0000db040001edb60005b6db2002db6d80;
   0x410492080080000412c00000082000180402000002400000410000080082011ffedf7001df7d800beff00000f7db0000ffe40001ffbe0001bedf8006fb7db0;
   0x492492402492000012cb00000924900324924900004800004924868024924321f7dbef801b6db0016db6c00016db60000b6db0000db6c000b7dbec00db6db60;
   0x24925b6092490000092400000492400192c964800024800024920b0092492010dbedb7000db6d800b6db00000b6db0000db6d80016db60005bedb6006db7db0;
   0x804920004000000124b0000010000180406000000080000080090000402010fbedf7000dbef00037fb000003ff80002dffc80007ff60005bedfe006fb7db0;
   0x4925b6c02492000016d86c000124800364924900164b6000492416c024924320b6db6f000b6db0006db6010002db40005b6db0000db65800b6db6c00db6db60;
   0x2492db60124800000924b00000924001924924800925900004901b6012482010db6db60005f6c00016da0780016d8000659058001ff82c005b6db6006db6db0;
   0x24924920024000004804fe000092000180090000080490000490092002402000fb7db60001ffc00017f8078001ff8001841808001fff24005b7dbe002dbed80;
   0x5925b6c004924801b24b6c00002400012496490016cb2400092016c004901b60b6db6c00016d80000db00b6006db6000cb6cb6000db6180036db6c001b6db40;
   0x2496db6002492402d92db6000092000012492400196c900004900b6002400c807b6db60000b6000006d805a00f6db001259698001fff2d801b6db0002db6d80;
   0x2002492002493c02d8059f8004004000000100000924900000000900000004801befb000243e480013c101805f6cb201059408001edf0f801befb0000df7d80;
   0x2492496c16db2db25b65b6d805b25b60924b6c80016c92400492486c16c96c30016db60005b2cb6016596c300b6db6c008b2c96c16db61b0016db60000b6db00;
   0x120824005b6492c86d92db2c07fb6fe00025b20001b24900125b24304b65b20000b7db00024104807f04fe4007b6d92012492df01865904000b7db00005bec00;
   0x10000492492406492c9be07fb6ff00000900000924900005f0010492d92000037f800000180007f84ff4007be482008492d80182490000037f800005fec00;
   0x24924900b6db6db25b65b6db0db6db60100924000164b6c024b64920b6db6db0002db4000492c920b6c96d800b6db2580c82490010592c00002db4000036d800;
   0x124924005b2c92c86db6db2406fb7ff0000090000192db00125924304b2cb2400006c000024be4907fe5fec00db6d82006cb2500182590000006c000000b6000;
   0x492492c874924fb00fff7ff000000000008049000008001049249200000000000003c0007fe7fec00492482003d82400182c10000000000000000000;
   0x2492490092492490592496900cb6db6000000000000490002492492092492490000000000492c920b6db6c900924924000b00800100820000000000000000000].
Definition emoji_rows_89 : list N :=
  [0x10000000000000000000000080000000000000000000000090000;
   0x4000004100000000000000000000000024000000000000004000000800900000b60000000004000100000000800000000000000120000004b0000;
   0x12480000090000032000000012400000000000002492000016c00000090000092412400016d800000000b00124800000b6c000024924920124900005b6c000;
   0x4924000004000007900000000920000000000000924900005b64000004800004900920005b6c00002400400492400002db6000012400000092480002db6000;
   0x492400000400000780000000000000000000000092490000492400000400000490092000792c000024024804924000024920000124800004924800024b2000;
   0x924900000900000320000000924900000920000124924005b6db00000900000924124800b6db00024925b60924900005b6d00002492492092492000db6d800;
   0x492480000400000010000002492480002490000492492002db6d80000400000490492000db6d00012492480492480006db6000092492000492480006db6800;
   0x492480000400000010000000000000000000000492492002492c90000400000010080000f92f800924904004924800024920000924920004924800024b2000;
   0x92490006cb0000036c00000492492000492400092492400db6db60001800000924124001b6db00124924a0092490000db6d80012492492092492000db6d800;
   0x2492480012400000190000002492490002492000492492016db65b0002c00000490092002db6d80092490400490080002d92400092492000492480016db6c00;
   0x400080000400000180000000000000000000000492492012492590002400000080010006fffde0092410080400080002492000092012000400480016cb6400;
   0x965900005b0000016400000492492002492480092492482db6cb6800590000016002400d96d96012492410096590000c925800124924b2096592000db6d800;
   0x493480002c000001900000124924900124920004924920165924b000240000009009000e4924b00924901804924820124924000924924004b2c80012c9e400;
   0x820800024000001900000000000000000000004924020124000b00024000004100820060830f0086180180000092000410000086182400400400003c3e000;
   0x924900005b2400016db6000492492002492480092492482c924968005b20000b2c36c00596596012c924160924900004b2c80012c924b20924900005b2c800;
   0x492400007fb60000feda00124924900124924004924920164924b0002c30000db6492002492480096590080492480002492000092492400496480002c96002;
   0x10000003d920000f2790000180c00003018000410082012180c10002400000490092000000000080000080410012000000000080002400000000000000002;
   0x924900025b6d80016db60004b2592002592c90092c96400cb25920005b0c000b6416c80092c900024920000124924804924804024924b20124900004964804;
   0x92400036dfe0000fedb0002592c80093c9a400492592016592c90002c060005b24920004924000124900000924120024920820124924000b6400002492012;
   0x920000f2d960000ffc30000080400002010000010080000080410002400000090090000000000000000000012012000000082000012400012400000400002;
   0x12480016d90580016da2c00492492002492480012492400c924920005b0000036096c80016c800024b20000024804000b64104025b24b20024924b00b64024;
   0x192c00082192c001b6c30002492480012592400092c900064924b0002d800001b00b4000092000002c80000012012000590086012c92400012492400590010;
   0x780c001824924000ffe12000010000000080000002400002010000002580000090090000082000010480000010012000000096000012000482492400000010;
   0x1b25b0012d96980016db2d80492490002492480012492400492492000db0080036016c800b65b0006c96000092492400012006c024924921b6db2d800924020;
   0x2f92f80186c92c801f6c168004924800124920000924900024924800161800001b0094000c927000b2492002412492002492030092412482d92492402c92030;
   0x3f82780192490f804f2e1e000092000000490000002400000092000012180000090090002e827800fe4b64000120000060020100b0036002492412412412420;
   0xdb6596016596db0186d90c00096c900004b64000025b2000096c90002c30010032016c005b6db6016d96db0492c96d82d92592836496d905b6db2d82d92db20;
   0x6db6c300801b2c008369800004924000024920000124800004924000b01800801b0090002c92790496d925824964b6c16db64105b2436002d92492436496d20;
   0x65924100c0582000012080000000000000000000000000000000000030180080090090002e927900024024800100b6c067fe010590016002492412012492420;
   0xdb6d92006cb25001825b4000002400000092000000490000002400002030006032016c004b6db20b24b2496492c96db2cb6d928b6c96d805b2db6d86db6db20;
   0x6cb6cb0016c16002c160800000000000000000000000000000000000107a00005b0096002c92790492c924824904b6c165b64105b65b60024924920b6cb6da0;
   0x2492410002010000000080000000000000000000000000000000000000080000410082000400400000000000000000002492010490092000000000012412400;
   0x124000000000000000000000000000000000000000000000000000000000000000000000000000000000000000000000000000000000000005900000000000;
   0x5fe000000000000000000000000000000000000000000000000000000000000000000000000000000000000000000000000000000000000036d80000000000;
   0x7ffc000000000000000000000000000000000000000000000000000000000000000000000000000000000000000000000000000004800000f65f0000000000;
   0x1b6db0000092000002490000012400000092000002490000012400000000000000000000000000000000000000000000000000000492400016cb6c000b60000;
   0x3ffff800024900000124800004920000024900000124800004920000000000000000000000000000000000000000000000000000124920001b25b4000db0000;
   0x7ffffc0000000000000000000000000000000000000000000000000000080000002c000000120000004900000000000000160000124920003b25bc002db6000;
   0xdb6db6002492480012492400492490002492480012492400492490000492400002ffe000036d800005b6c00002492000036d80002492480036db6c005b6d800;
   0x7ffeff00124924004924920024924800124924004924920024924800024920000ffff00005b6d00006db60000124900007fff00092492400792496006db6800;
   0x1fffe7f00000000000000000000000000000000000000000000000000024920001ffff8000ffff8001ffff800000000000ffff800924924003bfffc006db6c00;
   0xdb6cb681249249009249240049249201249249009249240049249200249248003ffffc001b6db6002db6d800124924001b6db6012492490036db6c00db6d800;
   0x1fdb25f00924924004924920024924900924924004924920024924900124924007ffffe002db6d80036db6c00092490003ffffc0092492480092490016d92c00;
   0x1f7800f00000000000005800000024000000120000000000000000000124924007ffffe007ffffe003fff7c00000000007ffffe0092482480090010016402c00;
   0xdb24968124924900924b64804925b2012492c900924924804924920024924900ffff7f005b6db6006db6db00924924005b6db6012492490012492000c925800;
   0x1e4924b0092492480496db2012496c90092492480492492012492490092492400fffdfe006db6db00b6db6c00492492007ffe5f0092492480096590012492c00;
   0x1e180c30000000000097df0002492480012492400000000000000000092482400fffdfe007ff25f00ffd92e00000000007df01f008000040009c190010418400;
   0xcb25920124924900b6db6c805b6db6012cb65900924924804924920024924900f7db6f00db6db6006db6db0092492400db2496012492490012c92000c92c800;
   0x1e592cb0092492400596c960124b6490092492400492492012492490092492400ff6db6006db6db00b64924004924920064924b0092c92400092490002492800;
   0xe080030000000000596c9e002492480012492400000000000000000080410400ffefb60064924a00d2492600010080006480030083018000082410000080000;
   0xc92492012592c900b6db6c005b6db6012db6d90092492400492492002592c900f6db6e00db6db6006db6db0092cb2400c96592012592c900024920004964800;
   0x64924b0093c9a4005bedb6002db6d90093c9e400492592002592c90092c92400dbefb6006db7da0092cb240049e5920064934a0092492400012480002492000;
   0x60100a00030180005bedfe002592c80013c9a400010080000180c000004900007bffb60064924a0092492400012480004092000080000000002400000490030;
   0x5924960024924900b6db6c005b6db6002db6d900925924004924920024b64800b6db6c005b6db6006db6da0012592400492c920024b64900005b00000b6406c;
   0x7cb65e00125924005b7db6002db6d80012592400492c920024924800124924005b6db6006db6d800124924004924900064924800125924000024000004900b6;
   0x3cff7c00000800001b7db80024924800124924000024000000100000004900007bffbc0024b648001249240001248000209200000000000000000000000003a;
   0x5b65b6002492480036db6c005b6db0002db6d800124924004924900024b6480036db6c001b6db0002db6d80012db2400096d900024924800964964004924824;
   0x3f92f800124b20001b6fb0002db6d800124b20000964900004924800124920001b6db0000db6d800125920000924900004924000024b200049249601e087c30;
   0xffff800004900000bffb00004b64800024920000024000000920000000000000b6db000049240000249200000000000000000000049000040000203f007e20;
   0xb6db00004b6400016db60000b6db00005b6c80002592000092c90000492400006db60000b6d800005b6c00002492000012480000492400092592406d92db60;
   0xffff000024920000b6db00005b6c00002492000012480000492400000490000016d800001b6400002490000012480000092000000490000493c920ffc9ff80;
   0x7ffc00000000000016d80000092400000490000000000000000000000000000002400000012000000080000000000000000000000000000003c000ffc1fc00;
   0x16d800000920000005b0000012480000092000000490000002400000000000000000000000000000000000000000000000000000000000092592406db6d920;
   0x12000000000000000000000000000000000000000000000000000000000000000000000000000000000000000000000000000000000000002400092492400].
Definition emoji_rows_90 : list N :=
  [0x90000000480000002000000000000;
   0x240000000000000000000000000000000000000000000000000000000000000249000003fd800005b6000002db00000124000;
   0x120000000000000000000000be000000080000000000000000000000000000000000000000000000000000092480000fffc00006db60000b6d80000492000;
   0x20000001ffc000007f0000000000000000000000000000000000000000000000000000092490001ffff8001ffff0001ffff0000000000;
   0x12480000092400002db0000036da00001b6c000000800000024000000100000000800000024000000100000124924005ffffe002db6d80036db6c000924900;
   0x49240000249000003ff800007ffe00003ffe000002c000000b6000000590000002c000000b6000000590000492492007ffffe0036db6c005b6db6002492480;
   0x7ffe00007ffe00007ffe000016c800000b60000005b0000016c800000b60000005b0000492492007fffff00fffffe007ffffe000000000;
   0x92490000492400006db60000b6db0000db6d80002db6000036d800005b6c00002db6000036d800005b6c00092492400fffffe016db6db00b6db6d004924920;
   0x4924000024920000ffdf0000db670001ffff800036d800005b6c00002db6000036d800005b6c00002db600049249201ffffff00b6db6d80db6db6002492490;
   0xffcf0000c1070001ff9f80003ff800005ffc00002ff600003ff800005ffc00002ff600049241201ffffff00ffff7f80fffcbf000000000;
   0x92490000492480016d960000924b0002db2d80006db60000b6db0000db6d00006db60000b6db0000db6d00092492480fbedbf816db6db01b6db6d804924920;
   0x4934000124920001924b0000c9340001e493c000b25b0000db6d00006db60000b65b0000d92d00006c9600049249201ffb6df01b6db6d80db2496012492490;
   0x83000000410000080010000083000018413c000b00f00007b7c000064960000b24f000068040000601600040000201ffb6df01f6492f80e92497000000000;
   0x92590002492480016cb2000092590002c925800164b60000b6db0000db6d80016db60000b64b0000c92580092492480db6db7816db6db01b6db6d804924920;
   0x492400012cb2000096590000492400012cb2c000965b0000df7d80016db60000965b0000c92580016cb20004b259201efb7db01b7dbed80cb2592002592c90;
   0x10000000410000080010000010000018003c00084010000df7d80012cb200009659000048208001043200043018201eff7df00f3c9e700cba592000182c00;
   0x492480002492480016592000492480002c925800124920000b6db0000db6d80016db60000924b0000c92580092c96400db6db6016db6db00b6db6d004b25920;
   0x249240001249200049249000249240003e493c00092490000db6d80016db6000092cb0000c9258001249200049249201edb6db00b6db6c00c92492002492480;
   0x9200000048000000240000009200001e483c00082410000dfec00012492000092490000c1240001008200040000200edb6df00d2492600492492000000000;
   0x492cb24124b64900925924804924b2412cb65900165b20001b6db0000db6d00016db6000196cb0000cb6500092492400db6db6006db6db00b6db6c004924920;
   0x1249249209249248249249241249249209e497c800b2cb0000db6d00016db60000b2cb0000cb6500016596000492c92006dbede0036db6c00492c96002492480;
   0x48048000040000000000000048048001f01fc000b00b0000dfec000164960000b24b0000c90400016006000482412007dbede0032492c00792496000010000;
   0x25924b2492492492492cb24925924b2492c92592016c960001b6db0000db6d80016db60001b25b0000d92d800124924007b7dbe006db6da0036db6c004924920;
   0x124924924924924824b64924124924924924924801b65b0000db6d00016db60001b6db0000db6d00016cb6000492492007ffffe0036db6c005b6db6002492480;
   0x24804800000000001924900004804800000000000b6db0000db6d80016db60000b6db0000db6d80016db6000092490003ffffc003fdbfc001f25fc000000000;
   0x25b24b24924924924b6cb6c925b24b2492492492036db6c001b6db4002db6d80036db6c001b6db4002db6d800124924001f6dfc002db6d80036db6c000924900;
   0x4924800124924004b64b60004924800024924005b6db6002db6d80036db6c005b6db6002db6d80036db6c00092490001ffff80016db68001b6db0000492480;
   0x4804800024920000b24900004804800024920005b6db6002db6d80036db6c005b6db6002db6d80036db6c00092490000ffff8001ffff0000ffff0000000000;
   0x24b25b24125b6c92496db6c824b25b24125b6c920b6db6c005b6db6006db6db00b6db6c005b6db6006db6db00024920000ffff0000db6d00006db60000924900;
   0x492480002db2400496592000492480002db20005b6db6006db6da0036db6c005b6db6006db6da0036db6c000124800007ffc00006db6000036da0000092400;
   0x25b00000164800000000000025b00005b6db6002db6d80036db6c005b6db6002db6d80036db6c000024000001ffc00002ff0000017f80000000000;
   0x492492002492480092492400482482002492400012492400492492002492480012492400492492002492480000480000006c000000b60000005900000024000;
   0x12490000492480002492000000000000000000000000000000000000000000000000000000000000000000000000000000000000000000000000000000000;
   0x92490000492480012492400000000000000000000000000000000000080000000000000000000000000000000000000000000000000000000000000000000;
   0x416db6c101b6db6080db6db00000000000920000000800000000000000be0000005800000000000000b60000004800000000000000b60000004800000000000;
   0x160b25b2180492c92c124b6400000000000490000002400000010000003ffc000017f80000010000002db0000016d80000010000002db0000006d80000000000;
   0x3c012492380492c87c024924000900000024900000124800000fe000003ffe00001ff800000fe000003ffe00001ff800000fe000003ffe00001ff80000000000;
   0x2c16db6c320b6db65805b6db001248000049240000249200003ff800007ffe00007ffe000036d800005b6c00006db6000036d800005b6c00006db60000124800;
   0x300b2492180592497c164924004924000024920000124900007ffc00007ffe0000ffff00005b6c00006db60000b6db00005b6c00006db60000b6db0000492400;
   0x10032492180592483002492400492400002492000092490000ffff0000ffff0000ffff00007ffe00007ff60000ffff00007ffe00007ff60000ffff0000000000;
   0x496db6c12436db65925b6db00924900004924000124920000ffdf0000fb6f8001ffff8000b6db0000db6d80016db68000b6db0000db6d80016db68000924900;
   0x12032c92090596496c86db2400492400002492000092490000ffef8000edb70001ffdf8000db6d80006db60001b6db0000db6d800064920001b6db0000492400;
   0x100b2492080492483c06492400490400000412000092090000ffef8000fdbf0001ffdf8000ff2f80006c920001f64f8000c927800064920001f24b8000000000;
   0x2c16db6c321b6db6590db6db0092490000592c800124924001f6db0000db7d8003edb7c001b6db0000db6d80016db6c001b6db0000db6d80016db6c000924900;
   0x36192492582c92492c16492400492400002cb2000092490000df6f80016db60001f6dbc000db6d80016db60001b6db0000c92580012cb20001924b0000492400;
   0x12092492482492483c124924004c2000000410000084110000df7f00017dbe0001fefb8000cd3500002c9200019e798000cd35000024920001967980000c2000;
   0x2c96db6c365b6db65b2db6db0096590002492400012cb24001b6db0002db6d0003edb7c000b6db0002db6c00036db6c000b6db00025b6c00036db6c000965900;
   0x30596d92582cb6492c32db2402492400012492000092490002db6d00016db60001b6dbc002db6c00016db60001b6db0002c92400012592000192490002492400;
   0x30196d925824b64820125b2400410000000000000082410000dbee00006db60001f7db8000492400002492000192cb8000492400002492000192498000010000;
   0x6c36db6cb61b6db6582db6db04924900024924000124924004b6db00025b6c0003edb7c004b6db00025b6c00036db6c004b6db00025b6c00036db6c004924900;
   0x36192d925b2cb6496c165b24024b64000125b20004924900025b6c00012ff60005f6db80025b6c00012db60005b6db00024b64000125b20005b6cb00024b6400;
   0x160924921b0c96483f12492400012000002482000082c100001ffc00002ff20001f7ff80000b64000024920001f3cf80000920000024920001f2cb8000012000;
   0x2d96db6c169b6db61b0db6db2492492412492492492492482496d924125b6c924bfdbfc82496d924125b6c924b6db6c82496c924125b6c924b6db6c824924924;
   0x160b24920b0c92490f964924124924924924924824924924124b6492492db24825f6dfa4124b6492492db24825f6db24124924924924924825b25b2412492492;
   0x2092492010c924804064924000820000120124000800100000be000012ff24001f7cb00000920000124924000924b0000092000012492400092490000092000;
   0x496db6c024b6db6010db6db24b65b2492d92d924924924924b6db2492db6d92496db64924b6db2492db6d92496db64924b6db2492db6d924965b24924b65b24;
   0x25b2492002c92490496492412d92592492492482492492412db65924b2db24825b6db6412db25924b2db24825b6db2412d92592492492482492492412d92592;
   0x2192492012c92480496492402c82480012012400000000002c924800125b24001b6dbe002c92480012492400092492002c92480012492400092492002c92480;
   0x5b6db6c065b6db60b2db6db24b65b6412d92d924924924924b6db6412db6db2496db6c924b6db6412db6d92496db6c924b6db6412db6d92496db6c924b65b64;
   0x64925b20b2492d907924b6c025b2d800124924000924900025b2d80092db24004b6db60025b2d800925b24004b6db20025b2d800924924004b6db20025b2d80;
   0x7c924b20f2492480fb249640059248000201200003ed900005924800827f24004bedb20005924800024924000bedb00005924800024924000bedb0000592480;
   0xdb6db6c16db6db60b6db6db2496d92412492492492db6482496d924125b6c92492db6482496d924125b6c92492db6482496d924124b6c92492db6482496d924;
   0x165b2492096c92480cbe4924024b2480000490000096d900024b2480092db2400496d920024b24800925b2400496d920024b2480092492400496d920024b2480;
   0x80000080000000400000000000000000000000002400000000000000490000002400000000000000080000002400000000000000000000002400000000000].
Definition emoji_rows_91 : list N :=
  [0x24000000124900004924800024924000924900004924800024924000124900004924800024924000124900004924800024924000124900004924800024924;
   0xfe000000d924800164924000b2492000d924800164924000b2492000d924800164924000b2492000d924800164924000b2492000d924800164924000b2492;
   0x1ff800000492480012492400092492000c92480016492400092492000492480012492400092492000492480012492400092492000492480012492400092492;
   0x36d800120b6db60805b6db2416db6c3e0b6db6180db6db2c16db6c360b6db6180db6db2c16db6c160b6db6180db6db2c16db6c120b6db60805b6db2416db6c;
   0x1f3c00080492c924024964100b25927c0c92c93c164964fe0b2592580c92c92c064964360b2592580492c92c064964360b2592080492c924024964100b2592;
   0x3f3c000804924820024924100b24927c0c92483c164924fe0b2492780492483c1649247a0b2492380492483c024924700b24920004924800024924000b2492;
   0x324800120b6db60825b6db2416db6c361b6db61a2db6db7c36db6c361b6db61a2db6db6c36db6c361b6db6182db6db6c16db6c120b6db60825b6db2416db6c;
   0x192c00082592490416492410432492186592493cb64924365b2492182592492cb6492436432492182592492c16492432432492082592490416492410432492;
   0x300c00080596480402492410032c92096596480db249243ec32c92092596480482492432432c92092596480482492430432c92080596480402492400032c92;
   0x32c80012436db60905b6db2c86db6c16c36db61b65b6db6d86db6c16c36db61b65b6db6d86db6c16c36db61b25b6db6d86db6c12436db60905b6db2c86db6c;
   0x192c00190596492c064924320b24921b0596492d864924360b24921b0596492d864924360b2492190596492c864924320b2492190596492c064924320b2492;
   0x193800080c924824164924320924920b0c9248241649243e092492090c9248241649243e092492080c9248241649243a092492080c9248241649243a092492;
   0x165800361b6db65b2db6db6c16db6c361b6db65b2db6db6c36db6c361b6db65b2db6db6c16db6c361b6db65b2db6db6c16db6c361b6db65b2db6db6c16db6c;
   0x92000592c92492c924924364924925b2c92492db24924365924925b2c92492db24924365924925b2c92492c92492436592492592c92492c92492436492492;
   0x8240048249248241249243e4924924964924824b249243e7924924924924824b249243e59249248249248241249243e49249248249248241249243e492492;
   0x36d800305b6db6582db6db2c36db6c345b6db6582db6db6c36db6c345b6db6582db6db6c36db6c345b6db6582db6db2c36db6c345b6db6582db6db2c36db6c;
   0x5b6c00582cb6c96c32db2410196d92582cb6c96c32db2430196d92582cb6c96c32db2430196d92582cb6c96c32db2430196d92582cb6c96c32db2410196d92;
   0x92400582cb6486c125b2476192d92582cb6486c125b247e192d92582cb6486c125b247e192d92582cb6486c125b247e192d92582cb6486c125b2476192d92;
   0x16d800361b6db65b2db6db6c16db6c361b6db65b2db6db6c16db6c361b6db65b2db6db6c16db6c361b6db65b2db6db6c16db6c361b6db65b2db6db6c16db6c;
   0xb64005b0c96492d164b2436192c925b0c96492d164b2436192c925b0c96492d164b2436192c925b0c96492d164b2436192c925b0c96492d164b2436192c92;
   0x920000b0c92480d9649241f8924920b0c92480d9649241f8924920b0c92480d9649241f8924920b0c92480d9649241f8924920b0c92480d9649241f892492;
   0x86d10016cb6db60b0db6db0d96db6c16cb6db60b0db6db0d96db6c16cb6db60b0db6db0d96db6c16cb6db60b0db6db0d96db6c16cb6db60b0db6db0d96db6c;
   0x4b60000b0c924904864924024b24920b4c92490586492406cb24920b0c92490586492406cb24920b0c924904864924064b24920b0c924904864924024b2492;
   0xb6000000c92480006492402092492034c92480786492402c92492030c92480486492402492492010c92480486492402492492000c92480006492402092492;
   0x96d900025b6db6092db6db0496db6c06db6db60b6db6db04b6db6c06db6db60b6db6db04b6db6c065b6db6092db6db0496db6c025b6db6092db6db0496db6c;
   0x24b6480012c92d904b64b6c025b25b2096c92d905b64b6c06db25b2096c92d904b64b6c06db25b2092c92d904b64b6c025b25b2012c92d904b64b6c025b25b2;
   0x92000032492d804124b6c021925b20f6492d805b24b6c06d925b20b2492d805924b6c065925b20b2492d804924b6c025925b2032492d804924b6c021925b2;
   0x496c92006db6db60b2db6db0d96db6c06db6db60b6db6db0db6db6c06db6db60b6db6db0db6db6c06db6db60b6db6db0db6db6c06db6db60b2db6db0db6db6c;
   0x4924000f2492d90fb2496406d924b20f6492d90fb2496406d924b20f6492d90fb2496406d924b20f6492d90fb2496406d924b20f2492d90fb2496406d924b2;
   0x97c92480cfe492416792492097c92480cfe492416792492097c92480cfe492416792492097c92480cfe492416792492097c92480cfe492416792492;
   0x12480016db6db61b6db6d80db6db6c16db6db61b6db6d80db6db6c16db6db61b6db6d80db6db6c16db6db61b6db6d80db6db6c16db6db61b6db6d80db6db6c;
   0x92492480492492012492490092492480492492012492490092492480492492012492490092492480492492012492490092492480492492012492490;
   0x2400000000000000480000002000000000000000080000002000000000000000080000000000000000000000000000002000000000000;
   0x2400000092000000ff0000002c000000fe000000db0000002c000000b6000000db0000002c000000b6000000490000002400000092000000db0000002c000;
   0x1200000049000001ff800000fe000003ff8000016d800000b6000000db0000016d800000b6000000db000000240000001200000049000001ff800000be000;
   0x9200000049000001ff800000ff000003ffc00001ff800000ff000003ffc00001ff800000ff000003fb800000000000000000000000000001ff800000ff000;
   0x12480000092400003fbc00001ff800005ffc00002db4000016d800001b6c00002db4000016d800001b6c00002490000012480000092400002db4000016d800;
   0x9200000249000003ed800001ff800003fbc000036d800001b6800002db40000365800001b6800002db40000124800000920000024900000324800001b2800;
   0x8000000240000003ed800001ff800003fbc000012480000092000003c9c000012480000092000002494000000000000000000000000000010080000080000;
   0x12480000092400002db0000016d800007b6c00002db0000016d800005b6c00002db0000016d800005b6c000024900000124800000924000024900000124800;
   0x92000002490000016d800000b6000003dbc000016d800000b6000002db4000012480000092000002494000012480000092000002490000012480000092000;
   0x1000000208000001fd800000be000003ffc00001248000009200000359c000012480000092000002494000000000000010000000080000010080000010000;
   0x2400000092400000db0000006d000001b6c00000db0000006d000001b6c000005b0000006c000001b6c000004900000024000000924000004900000024000;
   0x12000000590000006c000000b6000003db8000002c00000036000000db0000002c00000012000000d90000002400000012000000590000002400000012000;
   0x410000003c0000003c000000ff0000002400000010000000cb0000000000000010000000cb0000000000000010000000080000000000000000000;
   0x12480000092000000590000012c800000b6000000590000012c800000b6000000590000012c800000b60000004900000124800000920000004900000124800;
   0x92400002cb0000016d800000b6400002db0000016d800000b6400002db0000016580000092400002cb0000016580000092400002cb0000016580000092400;
   0x924000024b00000124800000924000025900000124800000924000024b00000124800000924000024b00000124800000924000024b0000012480000092400;
   0x36d800005b6c00002db6000036d800005b6c00002db6000036d800005b6c00002db6000036d800005b6c00002db6000036d800005b6c00002db6000036d800;
   0x92400002db0000036d80000592c00002db6000036d80000492400002db6000016d80000492400002db0000016d80000092400002db0000016d80000092400;
   0x920000004900000324c00006924000024960000124800004924000024900000124800000924000024900000124000000920000004b0000002400000092000;
   0x16d800004b6400006db6000036da00004b6400002db6000036da00004b6400002db2000036d800004b6400002db2000016d800004b6400002db2000016d800;
   0x492400002db20000b6cb0000492400006db6000096cb0000492400006db2000006c00000492400002db2000006c00000492400002db2000006c00000492400;
   0x92000000490000082430000c92500006492000082410000492400002492000082410000492400002492000002400000092000000490000002400000092000;
   0x86d900004b6080016db2000086db0000cb6580016db2000086db0000cb6580012db2000086d90000cb6580010db2000086d900004b6080010db2000086d900;
   0x92080010db0000186d10000c92180010db2800086d10000c92180010db2000086d10000092080010db0000086d10000092080010db0000086d10000092080;
   0x92000000490000182410002092080010490c00002400002092080010490400002400000092080010490000002400000092000000490000002400000092000;
   0x496d920025b6c80036db2c00596db6002db6d80032db2c00596d96002db6d80032db2400596d960025b6c80012db2400496d920025b6c80012db2400496d920;
   0x24b6480012db24005b6db6002db6da0036db6c005b6db6002db6d80036db6c00496d920024b6480012db2400496d920024b6480012db2400096d900024b6480;
   0x920000004900001b65f0002f92d80017cbec00092490002492480012492400092490000492480012492000002400000092000000490000002400000012000;
   0x92c90000492480016db60000b6db0000db6d80016db60000b6db0000db6d80016db60000b6db00005b6d80012592000092c90000492480012592000092c900;
   0x92400002490000036d900005b6c00002db6000036d800005b6c00002db6000012480000492400002492000012480000092400002490000012480000092400;
   0x8000000000000001ed800001f6c00003fb0000012480000192400002c90000012480000092000000490000012000000080000000400000010000000080000;
   0x124800000820000004900000124800000920000004900000124800000920000004900000124800000920000004100000124800000820000004100000124800].
Definition emoji_rows_92 : list N :=
  [0x10000;
   0x10000000080000000000000010000000080000000000000010000000080000000000000010000000080000000000000010000000080000000000000012000;
   0x2c00000010000000180000002c00000010000000180000002c00000010000000180000002c00000010000000180000002c000000100000001800000124800;
   0x10010000180080002c02400010010000180080002c02400010010000180080002c02400010010000180080002c02400010010000180080002c02400092000;
   0x10010000080000002c02400010010000080000002c02400010010000080000002c02400010010000080000002c02400010010000080000002c02400092000;
   0x6c024000360320005a0480006c024000360320005a0480006c024000360320005a0480006c024000360320005a0480006c024000360320005a04800124800;
   0xb60120005b0080006c024000b60120005b0080006c024000b60120005b0080006c024000b60120005b0080006c024000b60120005b0080006c02400092000;
   0x92010000490080006c02400092010000490080006c02400092010000490080006c02400092010000490080006c02400092010000490080006c02400002000;
   0x16d82c000b6010000db0180016d82c000b6010000db0180016d82c000b6010000db0180016d82c000b6010000db0180016d82c000b6010000db01800124800;
   0xb6010000db0080016d800000b6010000db0080016d800000b6010000db0080016d800000b6010000db0080016d800000b6010000db0080016d80000092000;
   0x92010000490080016d80000092010000490080016d80000092010000490080016d80000092010000490080016d80000092010000490080016d80000010000;
   0x36d800001b6c10002db4080036d800001b6c10002db4080036d800001b6c10002db4080036d800001b6c10002db4080036d800001b6c10002db4080002c000;
   0x1b6c10002db6080036d800001b6c10002db6080036d800001b6c10002db6080036d800001b6c10002db6080036d800001b6c10002db6080036d80000010000;
   0x492410002492080036d80000492410002492080036d80000492410002492080036d80000492410002492080036d80000492410002492080036d80000000000;
   0x5b6db6002db6d90036db6c805b6db6002db6d90036db6c805b6db6002db6d90036db6c805b6db6002db6d90036db6c805b6db6002db6d90036db6c800165800;
   0x65b6cb00b2db2c80d96d960065b6cb00b2db2c80d96c960064924b00b2c92c80d924960064924b00b2492c80d924960064924b00b2492c80d924960001b6c00;
   0x165f7cf00f3dbee80e9ef960164924f00f2cb0e80e964960164924f00f2c90e80e924960160820f00f0c10680e000060160820f00f0c10680e00006000092400;
   0xdb6fb60165b7cb01b6db6d80db6d960165b6cb01b6db6d80db6d960165b6cb01b6db6d80d96596016592cb01b2cb2d80d96596016592cb01b2cb2d80016d800;
   0x65f6db00b2db6c804befb60065b6db00b2db6c804b6d960064925b00b2d92c804965960024925900b2592c804965960064925b00b2592c804965960000b6400;
   0x5bec1000249608003ff80000492410002490080012480000492410002490080012480000010010000080080002000000000010000080080000000000092000;
   0x36d80000492410012db6080036d80000492410012db6080016d80000492410012db2080012c80000492410012592080012c80000492410012592080096d900;
   0x1b6c100025b0080096d900001b6c10002590080096d900000924100024900800924900000924100024900800924900000924100024900800924900004b6400;
   0x1ff81000049008001ff800000b6010000410080017c80000092010000410080013c80000092010000400080002c00000012010000000080002c00000092000;
   0x16d80000492410012db2080016d80000492410012db2080016c800004924100125b2080012c80000492410012592080012480000492410012592080096d900;
   0xb6010002492080096d908000b6010002492080096c900000920100024920800924900000920100024920800924900000920100024920800924900000b6080;
   0x24be4bc010002580097f92c02492490010002480092492402492490010002480092492402492480010002400092490002480480010002400090090000092000;
   0x5b6db6c06c925b6036db6da05b6db6c06c925b6036db6d805b6db6c06c925b6036db6d805b25b6406c92592036cb6c805b25b2406c92592036c96c80496d920;
   0x6db6db60b6492d805b6db6c06db6db60b6492d805b6db6c06d92d920b6492c805b65b6406d92d900b6492c805b65b2406d92d900b6492c805b65b24004b6480;
   0x24b64be0920025805b6db7c024924920920024805b65b24024924900920024805b65b24024824800920024005b65b24024824800920024005b65b0000010000;
   0xdb6db6c16d92db60b6db6da0db6db6c16d92db60b6db6da0db6db6c16d92db60b6db6da0db65b6416d92db60b6cb6ca0db65b6416d92db60b6cb6ca00124800;
   0x6db6db60b6cb6c80db6db6406db6db60b6cb6c80db6db6406db6db60b6cb6c80db6db6406db6db60b6cb6c80db6db6406db6db60b6cb6c80db6db6400092000;
   0x92492400492492400000000092492400492492400000000092492400492492400000000092492400492492400000000092492400492492400000000;
   0x100000000800000000000;
   0x80000000000000010000;
   0x480000002400000000000000480000002400000000000000000000000000000000000000480000002c00000000000000080000000000000010000;
   0x16d800001b6000002db0000006c800001b6000002db0000006c800000920000024900000024000001b6000002db0000016c80000034010000180080002c024;
   0x1ffc00002db6000036d800001b6c00002db6000036d800001b6c00002490000012480000092000003ffe00003ff800001ffc00000580080002c02400036012;
   0x7ffc00007ffe0000ffff00007ffc00007ffe0000ffff00007ffc00000000000000000000000000007ffe0000ffff00007ffc00000480000002402400036012;
   0xffff0000db6d80016db60000b6db0000db6d80016db60000b6db0000492400002492000092490000db6d80016db60000b6db00000b60360005b0580006c024;
   0xffff80016db68000b6db0000db6d00016db68000b6db0000db6d0000249200009249000049240001ffff8000ffff0000ffff000005b0080006c024000b6010;
   0xffff8001ffff8000ffff0000ffff8001ff9f8000ffdf0000ffff8000000000000000000000000001ffdf8000ffff0000ffff800004900800024000000b6010;
   0x1ffff0002db6d80016db68001b6db0002db6d80016db68001b6db0000492480012492000092490002db2d80016db68001b6db00001b6810000db0180016d80c;
   0x1ffef80016db6c001b6db0000db6d80016c92c001b6cb0000db6d8001249200009249000049248001ec93c001ffcf0000ff2f80002db0080016d800001b6c10;
   0x3ffef8001e4938000fe4f0001fb2f8001a4938000fe4f0001f92780000000000000000000000000018003c001fe0f0001f907800024900800124800001b6c10;
   0x25f6db6412db6d92496db68825b6db2412db6d92496db60825b6db2412492492492492082492492412c92592496c928825b24b24005b6c10002db6080036d800;
   0x12db6d92496db6c824b6db2412db6d92492cb2c82492592412492492492cb2482492592412492492492cb2c82492592412492492002db60800b6d900005b6c10;
   0x3df7d8001acb380009e5900024d3480012c9280009a5900024d2480000c100000181800000c2000010c108000981800020c2000012492480092490002c92590;
   0x25b6db6412db6d92496db64825b6db6412db6d92496db64825b6db6412492492492cb2482496592412c92592492cb2482496596416c925b00b2c92d80d924b60;
   0x13db6d92496db64824b6db2412db6d924924924824924924124924924924924824924924124924924924924824924924124924920b24b2c80f9a5960164924f0;
   0x3dbef90092592000492c92003c92590092492000492492003c92590080080000402402000010010090082000402402003c101900f0430e80e1818601e0c20f0;
   0x25f6dbe4165b6cb2496db64825b6db64165b6cb2492db64825b6db64164924b2492592482492492416c924b24924924825924b6406c925b00b2d92d805965960;
   0x13fb6f90092db64824b6d92412db6d90092492482492492412cb65900924924824924924124b6490092492482492492413cb6790012492080092490000492490;
   0x3ffef800125b0400096c90003fbe780012490400092490003c96780010490400082410002012000010480400082410003e12780000080080000000000010010;
   0x25f6dfe4124b6490092db2c825b6db64124b64900925b2c825b6db6412492490092592c82492492412492490092492c825b24b64000924100025920800924900;
   0x13fb6f900925b2480496c92012db6d90092492480492492012d92d90092492480492492012492490092492480492492013f92f900004900800124800004b6410;
   0x2cbe780012492000092490002c92580012492000092490002c92580012092000092490000010000012012000090090002c00580000480080000000000010010;
   0x5b6db2012db6d90096db6c005b6db2012db6d90096db6c804b6db2012d92d90096c96c80492492012d92d90096c96c804924920004924100124920800924900;
   0x2db6d80016db6c005b6db2002db6d80016c96c005b65b2002492480016c964005b25b20024924800164964005b25b20024924800124924801924b2402d92d90;
   0x2df6f80012492400492492002492480012492400492492002492480012412000092490000000000012412000092490000000000012412400480010002d82d80;
   0x5b6db6006db6db00b6db6c005b6db6002db6d80036db6c005b6db6002d92d80016cb6c00492492002d92d80016cb6c00492492006d92d920b6496c805b65b64;
   0x6cb65a0036db6c005b6db60064b64a0016cb64004b6db2002492480016cb64004b6db2002492480016cb64004b65b20024924800b6cb6c805b24b6406d92d92;
   0x64924a0012492400492492002492480012492400492492002492480002492000092490000492400002492000092490000492400092492480490092406d92d92;
   0x5b6db6006db6db00b6db6c005b6db6006db6db00b6db6c005b6db6002db6d80016db64004b6db2002db6d80016db64004b6db2006db6db60b6cb6d80db6db6c;
   0x2492480012492400492492002492480012492400492492002492480002492000092490000492400002492000092490000492400092492480492492402492492].
Definition emoji_rows_93 : list N :=
  [0x0;
   0x0;
   0x800000000000000000000000800000000000000000000000800000000000000000000000800000020000000100000000000000024000000b6000;
   0xbe0000007f00000000000000be0000007f00000000000000be0000007f00000000000000be0000007f000000240000009200000008000001fe000001fe000;
   0x36d800005b6c00000580000036d800005b6c00000580000036d800005b6c00000580000036d800005b6c00002492000012480000092400007ffe00003ffa00;
   0x7ffc00007ffe00001fd800007ffc00007ffe00001fd800007ffc00007ffe00001fd800007ffc00007ffe0000924800004924000024920000ffff00007fff00;
   0x7ffe00007ffe00003ffc00007ffe00007ffe00003ffc00007ffe00007ffe00003ffc00007ffe00007ffe0000924900004924000024920000ffff0000ffff80;
   0xb6db0000db6d80006db60000b6db0000db6d80006db60000b6db0000db6d80006db60000b6db0000db6d8001249200009249000049240001ffff8001ffff00;
   0xfbef0001ffff8000ffff0000fbef0001ffff8000ffff0000fbef0001ffff8000ffff0000fbef0001ffff8000924900004924800124920001ffdf8000ffff80;
   0xfbef0001ffffc000ffdf0000e9a70001ffdfc000ffdf0000e9870001ffdfc000ffdf0000e1870001ffdfc000920900004924800124920001ffdf8001ffff80;
   0xb6db0002db6d80016db68000b6db0002db6d80016d968000b2cb0002db2d80016d968000b2cb0002db2d8041249240009249040049248243edb7c001ffdf04;
   0xdb6f8003edb7c001f64b0000c9278003e497c001f64b0000c9258003e493c001f64b0000c9258003e493c020924904004924824124920021f6db8400ff6f82;
   0x2c927800364924000924b0002c92780012492400090030002c82580012002400090030002c821800000024000901900004800000120020001fefb8000ff6f80;
   0x5b6db6016db6db00b6db6d80596db6016db6db00b2cb25805965b60164924b00b2cb25805965b60164924b0492cb24824925924124924924bedb6c825b6db24;
   0x16db6db01f6db6f82c96596c164924b01f2cb2782c96596c164924b01f2cb2782c96596c164924b01f2cb2782492592412493492492cb24825befb2412df7c92;
   0x1e4924f01f2cb2f83e92497c1e4924b01f2492783e00007c1e0920b01f0410783e00007c1e0800301f04107800800100100830100804304801befb00105f7e10;
   0xdb6db6836db6db41b6db6d80db6db6836db6db41b2492d80c92c96836c925b41b2492d80c92c96836c925b4492492582c92492412492492496db6d82cb6db24;
   0x16db6db01fedb6f80d924b68164924b01fa592f80d924968164924b01f2592f80d924968164924b01f2492f824924924124924924924924824b6db24125bec92;
   0x7c925f00fe493f80f924bf007c925f00fe493f80f8241f007c001f00f8493f80f8001f007c001f00f8483f804800120020100100900824004f6df20027bec10;
   0x5b6db6016db6db00b6db6d805b6db6016db6db00b6db2d805964b6016cb65b00b65b2d805964b6016cb65b04b25b24824924964124b64924b6db64824b6db64;
   0x2d92d800bed97c005b2cb6002c925800be597c005b2cb6002c925800be597c005b2cb6002c925800be597c02492c924124b6490092592482497d924125bec90;
   0xe9278003f597c007f24fe000c9278003e497c007f24fe000c9278003e497c007f24fe000c1278003e487c00082410002010080012012400097f900020fe080;
   0xb6db0002db6d80036db6c000b6db0002db6d80036c96c000b24b0002db2d80036c96c000b24b0002d92d80092492482492492412c92590092db2482496d924;
   0x5b6c0001fdbfc001b25b0000592c0001fc9fc001b25b0000592c0001fc9fc001b25b0000592c0001fc9fc00492492012492490092492480496d920124b6490;
   0x792e0001fc9f0000f25f0000792e0001fc9f0000f00f0000790e0001f01f0000f00f0000780e0001f01f000090090002482480000000000096c900024be480;
   0x5b6db6002db6d80036db6c005b6db6002db6d80036c96c005b65b6002d92d80036c96c005b65b6002d92d80096c96c005b65b20024924900b6db6c005b6db60;
   0x7cb67e003edb7c007f25be007cb67e003ec97c007f25be007cb67e003ec97c007f25be007cb67e003ec97c004b25b2002d92d800124924005b6db6006db6da0;
   0x7e127f00ffcbfe007fa5fe007e127f00ffcbfe007f01fe007e127f00ffc1fe007f01fe007e127f00ffc1fe00092490000492480000090000793c960064924e0;
   0xdb24b6016db6db00b6db6d80db24b6016db6db00b6cb6d80db24b6016db6db00b6cb6d80db24b6016db6db0016cb64004b6db2002d92d800b6db6c005b6db60;
   0x7cb67f00ffdbff00ffe5fe007cb67f00ffcbff00ffe5fe007cb67f00ffcbff00ffe5fe007cb67f00ffcbff004b6db2002db6d800124924005b6db6006db6da0;
   0xffffff00ffffff00ffe7ff00ffffff00ffffff00ffe7ff00ffffff00ffffff00ffe7ff00ffffff00ffffff00092490000492400002492000592496006c925a0;
   0xdb6db6006db6db00b6db6d00db6db6006db6db00b6db6d00db6db6006db6db00b6db6d00db6db6006db6db00124924004924920024924800924924004924920;
   0x400000000000000080000000400000000000000080000000400000000000000080000000000000000000000000000000000000000000000000000000000;
   0x2c00000010000000490000002c00000010000000490000002c00000010000000490000000000000000000000000000000000000000000000000000000000;
   0xdb0000002d800000b6c00000db0000002d800000b6c00000db0000002d800000b6c000000000000000000004800000000000000000000004800000000000;
   0x6d80000036000000490000006d80000036000000490000006d80000036000000490000000000000db0000017d80000000000000db0000017d80000000000;
   0x16480000092000000490000016480000092000000490000016480000092000000490000010000003ff800001ff80000010000003ff800001ff80000010000;
   0xdb4000006d800001b6c00000c940000064800001b2c00000c940000064800001b2c00016d800005b6c00006db6000016d800005b6c00006db6000016d800;
   0x124800000920000004920000124800000920000004920000124800000920000004920005ffc00007ffe0000ffff00005ffc00007ffe0000ffff00005ffc00;
   0x24800000120000004920000024800000120000000120000020800000120000000120007ffe00007ffe0000ffff00007ffe00007ffe0000ffff00007ffe00;
   0xdb0000002d800001b6c00000c90000002c80000192400000490000002c800001924000b6db0000db6d00016db6c000b6db0000db6d00016db6c000b6db00;
   0x2480000012000002492000002480000012000002492000002400000012000002492000ffef800065960001ffdf8000ffff80006db60001ffdf8000ffef80;
   0x2400000012000002492000000400000012000002492000000400000012000002492000ff8f800060820001fe4f8000ffff80006db60001ffdf8000ffef80;
   0x400190002002c000301b6c00400090002002400010192c00400090002002400010192c001b64b0000c92580036496c001b6db0000db6d80036db6c001b6db00;
   0x2002580010092400002492002002580010092400002492002002580010092000002492002c9258001e493c00492492002db6d8001edb7c005b6db6002db6d80;
   0x12580010092400082492000002580000000000000002000002180000000000000000006082030018c13600400006006df7ff003fdbfe007befbe0064924b0;
   0x82db6000436db00165b6c800825b20004124900124b64800825b20004124900024b2482c96596c16592cb01b2cb2582db6db6c16db6db01b6db6d82db6db6c;
   0x496d900024924800125b2000496d900024924800125b2000496d900024924800125b20364924b41f2492782e92496c36db6db41b6db6d82fb6db6c36db6db4;
   0x82d900024120800105b0400002d800000120000005b0000002d800000000000005b001f4000f80f0080783f8001fc1fdf6ff80f6ff6f83fffdbfc1fc925f8;
   0x1105b0402082d960124360801105b04020824920124360801105b0402082482012436082d92cb6c164924b01b2592d82db6db6c16db6db01b6db6d82db6db6c;
   0x2002d800100120801005b0402002d800100120801005b0402002d800100120001005b0416c925b00b2492c00f9249e016db6db00b6db6c00fb6dbe016db6db0;
   0x2002d00010012080080090402002d00010000000080080002002d00010000000000000007c925f0038493c00fc243e007fffff003eff7c00fffffe007c927f0;
   0x61805b0432c02d805b00364861805b0432c024805b00124861805b0432c024805b00124805b2cb6002c925800b6596c005b6db6002db6d800b6db6c005b6db60;
   0x12c02d901b0036c82d805b6412c02d901b0036c82d805b2012c02d901b0036c82d805b6006c925a00165960007f24fe006d92da0016db60007f6dfe006d92da0;
   0x124024900b00924804804920124024900b00924004804920124024900b0092400480492003f82f800064960003f24fc003ffff80007dbe0003ffffc003f92f80;
   0xd80db6016c16db01b60b6d80d80db6016c16db01b60b6d80d80db6016c16db01b60b6d801b25b0000592c00016c96c001b6db00005b6c00016db6c001b6db00;
   0x16c06db00b40b6d80d805b6016c06db00b40b6c80d805b6016c06db00b40b6c00d805b6000d92d800064960001b25b0000db6d80006db60001b6db0000db6d80;
   0x2402c900920b2400480592002402c900920b2400480592002402c900920b2400480592003f80f8001fc1fc001f00f8003fb7f8001ffffc001fedf8003f92f80;
   0x4b05b6002d96db00164b6d004b05b6002d96db00164b6d004b05b6002d96db00164b6d005b25b6006db6db00b6c96c005b6db6006db6db00b6db6c005b6db60;
   0x596da0006db6c000b6db6000596da0006db6c000b6db6000596da0006db6c000b6db6007f92ff00fe497f00ff65fe007fb6ff00fe497f00ff6dfe007fb6ff0;
   0x9248000249240001249200009248000249240001249200009248000249240001249200ff83ff00fe407f00ffe7ff00fff7ff00fe407f00ffefff00ff93ff0;
   0x16db00001b6d80002db6c00016db00001b6d80002db6c00016db00001b6d80002db6c00db65b6016cb65b00b6cb6d80db6db6016cb65b00b6db6d80db6db60;
   0xb6c000005b6000002db00000b6c000005b6000002db00000b6c000005b6000002db0007ff7ff00feff7f00ffeffe007ff7ff00feff7f00ffeffe007ff7ff0;
   0x2000000090000000400000002000000090000000400000002000000090000000400002492490092492400492492002492490092492400492492002492490].
Definition emoji_rows_94 : list N :=
  [0x24000000000000000800000024000000000000000800000024000000000000000800;
   0x10000000000000000000000010000000000000000000000010000000036000000080000002480000036000000080000002480000036000000080000002480;
   0x3e00000000000000000000003e00000000000000000000003e0000000b60000000900000024800000b60000000900000024800000b6000000090000002480;
   0x6c000000b6000000080000006c000000b6000000080000006c00000016d800000b6800000db6000016d800000b6800000db6000016d800000b6800000db60;
   0xfe000002ff0000006c000000fe000002ff0000016c800000fe0000000b2c000005b00000124800000b6c000005b00000124800000b6c000005b0000012480;
   0x1ffc00007ffe00001ff800001ffc00007ffe00001ff800001ffc000000924000004900000120800000b7c000005b0000012c800000b2c00000490000012480;
   0x36da0000db6d80006db6000036da0000db6d80006db6000036da0000012480000092400002c96000016d800000b6c00002db6000016d800000b6c00002db60;
   0x5b6e0001ffff8000ffff00005b6e0001ffff8000ffff00005b6e000000924000004900000124800000b6c000005b0000016f800000b6c000005b0000016d80;
   0xdfff0001ffff8000ffff0000dfff0001ffff8000ffff0000dfff000000800000000800000104800000be8000007f0000017f80000092000000490000012c80;
   0xb6db0002db6d80016c960000b6db0002db6d80016c960000b6db0000002480000012000002c96000006d80000036000402db6000006d80000036000402db60;
   0xdb6f8001ed97c001f24b0000db6f8001ed97c001f24b0000db6f80000012000000080000012c900000360004001b0006016d900000360004001b0002016d90;
   0xc9278001ec03c000c0030000c1078001ec03c000c0030000c0078000000000000008000001248003001e0004001c0002012c80010012000400080002012480;
   0x5b6db2002d92580016c92c005924b2002d92580016c92c005924b2002016580010092400002492002016d800300b6c00582db6002016d800300b6c00582db60;
   0x2c92580016c9240049e5b2002c92580016c9240009a5b2002c925800100b24000824920000124800101b6c00182db6002c36db00101b6c00182db6000416db0;
   0x2cd3580018c13000098190000c82180018c13000098190000c821800000b20000000000000024800065b6d00082db6000c36db00024b2400082492000412590;
   0x1b6db0002c925800164924000965b0002c925800164924000965b0000496d900024924800925b20005b6db0006db6d800b6db6c005b6db0006db6d800b6db6c;
   0xc9258001e492000092cb0000c9258001e4920000924b0000c92580002436880012490400086d90002c369800365b2c00586d94002c360800365b2c00586d90;
   0x1c92580018083000182430001c10180018083000180010001c10180010036000000000000002d800120360800105b0c00182d86012036080010490400082d80;
   0x1b6db0002c92580016492c00192cb0002c92580016492c00192cb0002006d820100120801805b0402006d860100368801905b0c02006d860100360801905b0c;
   0xc9278001e4938001924b8000c9278001e493c001924b8000c927804100360001800904020024004100360801805b0c02002d044100360801805b0402002d04;
   0x1eb678001e4938001c2438001e3678001e4938001c2438001e367804100120020800900320024004100120820805b0432002d00410012082080490432002400;
   0x1b6db0002cb6580016496c001b2cb0002cb6580016496c001b2cb0036c06db01b40b6c82d805b6436c06db01b40b6c82d805b6c36c06db01b40b6c82d805b6c;
   0x3f92f8001e497c001f24f8003f92f8001e497c001f24f8003f92f800b60b6c80d805b6016c06db00b60b6d80d805b6816c06db00b60b6d80d805b6816c06db0;
   0x3f92f8001f01fc001f24f8003f92f8001f01fc001f00f8003f80f800900924004804b20124025900900924804804b20124025900900924804804b2012402590;
   0x1b6db0002d92d80016c96c001b25b0002d92d80016c96c001b24b0016c16db00b60b6d80d80db6016c16db00b60b6d80d80db6816c16db00b60b6d80d80db60;
   0x2d92f8001e497c001f25b0002d92f8001e497c001f25b0002d92f800b60b6d005805b6002c06db00b60b6d805805b6002c06db00b60b6d005805b6002c06db0;
   0x2c9278001e417c005f24ba002c8278001e417c005f24ba002c82780002012400090492000402490002012400090492000402490002012400090492000402490;
   0x5b6db6006db6db00b6db6c005b65b6006db6db00b6db6c005b65b60005b6db0006db6c000b6db60005b6db0006db6c000b6db60005b6db0006db6c000b6db60;
   0x6db6fb00bedb7c005f6db6006d92fb00bedb7c00df6db6006d92fb0002db6c00036db60005b6d80002db6c00036db60005b6d80002db6c00036db60005b6d80;
   0x3e9279009e497c005f24fa003e9279009e497c005f24fa003e92790000492000012490000092480000492000012490000092480000492000012490000092580;
   0xdb6db6006db6db00b6db6d80db6db6006db6db00b6db6d80db6db60000b6c800005b6000006db00000b6c800005b6000006db00000b6c800005b6000006db00;
   0x2492490092492400492492002492490092492400492492002492490000090000000480000012000000090000000480000012000000090000000480000012000;
   0x80000000000000000000000000000000000000000000000000000000000000000000000000000000000000000000;
   0x4900000000000000360000000000000000000000100000000000000000000000360000000000000000000000100000000000000000000;
   0x100000000000000164800000000000004b00000000000000000000007e00000000000000000000007e00000000000000000000005a0000000000000000000;
   0x1b000000000000012c800000920000007f0000002c000000000000007f0000002c000000000000007f0000002c000000000000005a0000002c00000000000;
   0x16d80000036000016cb6000016d800001b6c00002db0000016d800000b6000002db0000017d800000fe000002db0000016d800000b6000002db0000016d800;
   0x1ffc00000ff00001b64b0000596400007ffe00003ffe00001ffc00002ff000003ffe00001ffc00003ffc00003ffe00001b6c00002db000003ffe00001ffc00;
   0x7ffc00003ffc000092490000492400007ffe0000ffff00007ffc00003ffe0000ffff00007ffc00007ffe0000ffff00007ffc00003dbe0000ffff00007ffc00;
   0xb6db00005b6c000324b2c000965b0000db6d80016db68000b6db0000db6d00016db68000ffff0000fb6f00016db68000b6db0000db6d00016db68000b6db00;
   0xffff80017ffe0000b2590000496c0001ffff8001ffdf0000ffff00006ff60001ffff0000ffff0000ffff0001ffdf0000db6d00006db60001ffdf0000ffff00;
   0xffe70001ffff0000be4f0000592c0001ffbf8001ffcf8000f92f8001ffff0001ffff8000ffff8001ffff0001ffcf8000f92f8001ffff0001ffcf8000f92f80;
   0xb6cb0000db6d80016d96c000b24b0002db2d80036d96c001b24b0000db6d80036db6c001f6df0000fbef80036db6c001b6db0000db6d80036db6c001b6db00;
   0xc9250001ff97c001964b400049240003ec97c001924b8000c9258001e4938005f6db8000db6f8001edb78001f6db8000db6d80016db68001b64b8000c92780;
   0xc9210001e487c0019249800049240003e493c00090030000c8218001c0030005feffe007ff7fa003edb7c005d24ba002c9278001e4934005924ba002c92780;
   0x96590002c92580016cb2c00096590002c92580016cb24004965b2002c92580036db6c005bedb6002db6da0036db6c005b6db6002db6d80036db6c00596db60;
   0x592c00012cb2c0019e590000492480032cb2c0009e5b0002c92580016cb24005befb6002df7f8003edb7c005bedb6002db7d80016db6c0009e5b2002d93d80;
   0x82400012cb0400192590000492400032492c00090090000c821800184130001fefbc003dfff8001ffff8001de5b0002c9258001ecb30000925b0002c92580;
   0x924900025b6c80012492800092c90002c92580016492400092cb0000c92580016db6c001b6db4002db6d80016db6c001b6db0000db6d80016db6c001b6db00;
   0x492400012492c0009249000049240003e497c001924b0000c9258001e4938001b6db0001db6f8001edb78001b6db0000db6d80016db68001924b0000c92580;
   0x92400038083c0009249000049240001e497800182438001c0018001e0838001f7df8001ff7f8001eff78001d2cb8001c9258001e5938001924b8001c92580;
   0x16c80002c925800064920000b6db0000db6d80016492c001964b0002c92580016db6c001b6db8003db6f80016db6c001b6db0002db6d80016db6c001b6db00;
   0xb600001e597c000164800004b6400007c9e0001924b8003cb658001e5b7c001f6db8003dbef8001edb7c001b6db8002db6d80016db6c001964b8003cb6580;
   0x8200001e487c00012c80000092400003c980001f2438001e1078001e4978001ffff8003ffef8001ffffc001f6cb8001e9278001f59f8001f24b8001e92780;
   0x2400002d92d80000590000016d800000b6000016496c001b24b0002d92d80016db6c001f6df8003fb6f80016db6c001b6db0002db6d80016db6c001b6db00;
   0x920000164978000024000000fe0000024920001f24f8003f92f8001f49fc001f6df8003fb6f8001fdbfc001f6df8002db6d80016db6c001f24f8003f92f80;
   0x120000000820000024000004fe0000124920001f00f8003f80f8001f09fc001ffff8003ffff8001ffffc001f24f8003f92f8001f49fc001f24f8003f92f80;
   0xb24b0000592d800164924000b7cb0002492480036c96c005b25b6002d92d80036db6c005f6db6002db6f80036db6c005b6db6002db6d80036db6c005b6db60;
   0x492480006cb6c004924b2002c925800124924005f25b6002db6f8001ec97c005f6db6003db6f8001edb7c005f6db6002db6d80016db6c005f25b6002db6f80;
   0x4124800124924004924b20024924800124924005f24ba003c9279001e417c005f2cba003e9279001e597c005f24ba003c9279001e497c005f24ba003c92790;
   0x5b6cb6002db6cb00964964004b24b2002d92d900b6db6d00db6db6006db6db00b6db6d00df6db6006db6fb00b6db6d00db6db6006db6db00b6db6d00db6db60;
   0x2c965b0036db64004b24b2002d92d90017cbe4005f6db6006db6fb00becb7c005f6db6007fb6fb00bedb7c005f6db6006db6db00b6db6c005f6db6006db6fb0;
   0x2c9e590016493c004b65b2002d92d9001ffff4005f24fa003e9279009e497c005f24fa003e9279009e497c005f24fa003e9279009e497c005f24fa003e92790;
   0x492492002492480092492400492492002db6d80096496c005b24b2002c92590096496c005b24b2002c92590096496c005b24b2002c92590096496c005b24b20].
Definition emoji_rows_95 : list N :=
  [0x480000080000000000000000000000000000000000000000000000000480000000000002000000090080000000000000000000000000000000000;
   0x10000000000490000080000000000000012000000000400000000000000c000000004800000000000024000001feff0000000000000000000000000000000000;
   0x2db6db6c005b6c80016000000000000002c000000001b00004800000005a00000001b4000016d800005b0000036db60000000000024804800000000000000000;
   0x124924920124924000b0000000000000096000000002480012000000006c00000002d800000b6000002d800005b6db0000000000092412400000000000000000;
   0x10000000012002400030000000000000092400000482480002000000007f80000483f80000092000002d800007ffff0000080000092412480002400000000000;
   0x2402496406c925b0002000000002400012d800000b05b6000580000002db40000b61b60000b6d900025b60000b6db6c000b6c00016db6db0002492000016c000;
   0x12036d820900024800b00000000924004b2400000492480002000000036d800004924800004b6480036db00005b6db00004920004924924800b25900001fec00;
   0x1201249008000048009000000049240049048000049248000000000003fdb00005b2480002492480036ff0000097ff00024920004924924800924900007ffc00;
   0x2502db64164924b04120000005b6db20b64b00000b6d90000096000016db68000b61b60005b6db6006db6d800005b6c005b6d800b6db6db60925924000b6db00;
   0x12010002080082482432000002db6d905924800004924000004b00001b6db00004924800024925800b6db2400000db00064924004924924904b2492000ffff00;
   0x100000000800060824924000124964904924900000924020005900001ffdb60004804800024924800b6c92400000ff8012492400492492480492492000ffef80;
   0x24024b6432492c960b6db0002db6d96c16db6000036d80d800b64000b6db6d000b61b60005b6db6016db6db00000b6c02db6db00b6db6db60b2592c801b6cb00;
   0x16036da24804b0080032480016db04b0092490000492402000d960005b6db60005b2d800064924b00b6c96480000db4036492480492492482cb2492400c92780;
   0x1603fff04000b0080032080012492c30092492000492492400f960007f6d92c00483f800024924900b6492480000ff8032492480492492482492492400c82780;
   0x2502db64b24b6496002c96002db6d96c02c92c000b6db6d800b2d80036db65a00b61b6000db6db6016db6db00000b6c06db6db0036db6db6596c92d800965b00;
   0x12012482482432090030480016db65b20124920024924924004b6c000b6c92c00db2d80006d92cb01b6492580000db4032492480492492482cb6592c00cb6580;
   0x100000004004000800100800024124900124924024924924000bec000b6482d80ff2d800024924900b2492480000ffc032492480092492482492492400c82100;
   0x24024924b24b64960020160025b6db64005b65805b6db6d80016db0006db65b40b61b6000db6db6016db6db00000b6c06db6db6016db6db04924b65800924b00;
   0x12036d82480d900900104800125b6c920024924024924920000b6d80016c96d80db25b0016592cb00b2592c80000db60b64b6d80092492482596492400492400;
   0x12012490401c0008001048000209248000249248040249200003fd80016416da0ff07f00124924900b2492480000ffc0324bffc0092492402492492000410000;
   0x2582db6432592496000d96c82d924964000b24b00b05b6c00002db6000d92db60b61b6c02cb6db6c16db6db00001b6c06db6db6006db6db0596db2c80016c800;
   0x12012002482080080002db6c12492490000492480402490000016db0002cb6d805b0db6012592c901b2d92400000db6036db6db0012492402c92c92000092000;
   0x10000000082000080000482402492480000492480002492000007fb0002db6d805fc7f2012492410092492000000ffc03ffffff0012492400492490000000000;
   0x24024924164924b00000064b05b6db60000164960005b6d000005b64001b6db00b6c36d02cb6db6c16db6d800001b6c06db6db6c02db6d80096d920000024000;
   0x12012482090000480000090402492480000092c90012492000002d960005b6c005b61b2012492410192492000000db6036db6db40024920001b6c80000012000;
   0x12012490090000400000090000092400000092480012492000000f960005b6c001fe092012492410192490000000ffc007fffc9e002492000192c00000482480;
   0x2492492406c925b0000006400002400000002c96002db2d800000b2c00036d80016d86c02cb6db2c16db64000001b6c005b6c80c001b6c00016c800000b65b60;
   0x120100020124924000000800000000000000124800124120000004b60000b60000b6412030492416012480000000d96002db00060004900000b0000002d92c80;
   0x100000020124920000000000000000000000124800024000000000b80000b6000032400010492410002400000000492002f80000000480000000000002492480;
   0x6db6db6c005b6c800000020000000000000005b0000580000000016c00006c00002d80002cb6db2c005800000001b6c001b00000000100000000000005b6db60;
   0xb6db6db60024900000000100000000000000024800020000000000b0000010000012000010492412002000000000490000400000000000000000000006db6da0;
   0x12492492000000000000000000000000000000000000000000000000000000000000000000000000000000000000000000000000000000000000000000400080;
   0x12492000000000000000000090090002400000010000000092492400012000000db00000100000000000000024920000800000;
   0x2490000000000010000000000490000000002000000000d92d80012000000780000000db6db600049000001ff800000800000000000001ffff0000590000;
   0x80000000000000000000002000000000f92f800920000007800000004924920004920000081000000800000000000001ffff80004b0000;
   0x4924920000004800124924800924924000000005800000001b6db0016d800004300900000b6db6c00092480000410000012000000000000036492c00006c000;
   0x2492490000012400492410400000490400000082c00000002db6f80092400006182d800001b6db000018000000000000008200000200000018001c0000b2000;
   0x92000000012400400000000000000480000080400000000c925804924000070d64b00001b6db000008000000000000000000000240000038001c000592000;
   0x496c920000124900924924804924964b40000360b00000000b6db00b6db0000586db6c00036db68000920000004100000004b0002db00000b2492c80092d800;
   0x24924900000924804924800000004b24004904305800000005f6c004b6480002cb2db60001b6db0000490000092490000012580096480002db6db6c00016400;
   0x920000000924804000000000000b0412ff64100800000004924004b6480000e92db20001f6db0000490000092490000000f80097c90007ffffffc00032600;
   0x492c92000492492092492400492496cb6db6db6016000000036da00b6db60000b6db6d80036db68001b6c00016db6c000005b6036db6c005b6db6db0006c300;
   0x24924900124924804924900000124925fedb7fa00b0000000592c004b6c10000592db2c001b6db00024900001b6d90000002db0496c92006db6db6c000b6100;
   0x124924804000000000000905ffffff80010000000092400092c10000492d924003ffff0002492000092490010003ff04925f2007dbfff7e00092100;
   0x492492012492c92192492480492496c36db6db6002c00000036d80016d80c000b6db6da0036db6800492400016db6c020001b6cb6db6d90db6db65b00125b00;
   0x24924900924924804924900000004925f6db6f800160000005b6c000920020005b6db24001b6db00024920001924900100005b45b25b2486db6d96c00180c00;
   0x4924800924924804000000000000900bffffc80006c000005ffc00092002000596d924003ffff00024920000924900100007fe492496c87dbffd3e00180e00;
   0x4924920124924b6092492480492492416db6db00005920001b6db0002c001800b6db6db0036db6800492480016db6c00080016cb6db6db6db6db6db00125b00;
   0x24924904924924804924920000004900924924800024b0002dfed80010000000cb2db6c001b6db00124920001b6db60024000b65b6c96cf6df6dbec001b6c00;
   0x4924804924924804800000000004000924924800024900024fe480000000400c964b6c003ffff00124120000924960000000fe4924925f7ffffffe001f3c00;
   0x492492092492db60b2492480492492416db6db00000964005b6db60004000800b6db6db0036db6802492480016db2c004b0006db6db6db65b6db6db0016da00;
   0x24924904924924805924920000004900b6db6d80002592002db6d80002000000db6db6c001b6db00124924001924960025800b61b6db2ff6c92492c001b6c00;
   0x4924924001900020000004000924924000004920025b6c800000000004b25b6c003ffff0012012000092496000f800fe092497ff6000000e001f3e00;
   0x492492092492c80496492480492480006db6db00000b24801b6db40000800900b6db6db0036db6802592c80016db6c005b6016c02db6db65b6db6db0016db00;
   0x24924904924900004b2492000002000036496c00002c92402db6d80000400480596d92c001b6db0012492400192490002db01b6006db7ff6db6db6c001b6f80;
   0x492480492490000092492000000000012492400000492400d93d800000000005b25b6c001f6db0012012400092490000ff01fe002497fe7ffffffe001f3f80;
   0x4924920364b6000096c92580492400002db6d800000924801b6db0000010402036db6d80036db6802492480016db6c000b6db6c000b6db0db6db6db0016db40;
   0x24924904924800004164960000000000125920000004920024b64800000020101b6d92c001b6db00124924001924900005b6db40005b7c06492492c001b6d80;
   0x4800000924800000124920000000000024920000000920024824800000120000b3db60027b6db00124924000924900007ffff8000097c06c92492e001f3bc0;
   0x492492016db00000125b6c004924000000b64000000124001b65b4000000c02016db6d02db6db6c02492480016db6c00036db6000002d80db6db6db0016db60;
   0x2492490092400000082db0000000000000000000000090002482480000002002db65b60325b6db20124924001b6db00000b6db0000014006db6db6c001b6df0;
   0x12400000000490000000000000000000000010000480480000002006db64b00604924920124924000800100000bff80000000007ffffffc001f39f0;
   0x924900004000000000360024920000000000000000020000b00b00000000905b6db60060b6db6c02492480010002800002db00000000005b6db6da0016db60;
   0x402492480000492492002492000080010000002400000000002492492400092080].
Definition emoji_rows_96 : list N :=
  [0x10000000000000000000000000000000000000000000000000000000000000000000000000000000000000012000;
   0x2c00000002c00000080000092000000016cb0000000402c00000000580000092000000000000000010000012492400000000000180800002400000036d800;
   0x92000000010000000400002090000002db6780000016012000000003c00000490000000010000000480000492492000000000000010000092000000fffc00;
   0x92000000010000000400000000000003ffe780000096002000000183c00000490000000010000000490000492492000000000000010000092000003ffff80;
   0x16580000002c000a0090000000480002db6cb60000b6c064000000301b00005b6c00000002c000000920000b6db6c00000000000180c000164000005befb60;
   0x1b6c00080010000d02480000000400036db67c00024b20020000005800000024920000000360000025900005b6db60000000000020140005b2080007f92fe0;
   0xb60000800100005824800000924000bfffe7e04124b200200000058000000249200000003e00000249000049249201249249000201000049209001fe007f0;
   0x124800124020000340900000b6d96012db6cb60b2db6d02416db00900100005b6c80000006c000004b24000b6db6c06db6db6c00582c000b6496c02d924b68;
   0x1928001920900001a0400000db6cb0196db67f2c16cb20101b6d80400080002c924000000b60000025b00004b6cb2092492492006cb60005904b003fc001f8;
   0x920000924900000b0400002492490797ffe6a2c12cb20004bffc04000800024920000001ff0000024900004924920b2db6d9600249200049049003f0100fc;
   0x16d80030db60000868800005b6db6c36db6c32582db6d804b6db60200100005b6490000036d800005b6c000b6db6d86db6db6c00db6d000b6416c06c92496c;
   0xbe000082db2480034000002db6c90796d820064125b24025b6db04000800825924800005b6c00002cb0000d96c960b6db6db6006db60005904b603e09243e;
   0xfe000002c964800160000025900007d3c024024125b2402ff24b80000004804924000007ffc000024900004924920b2db6d9600649200049009207e0be43e;
   0x16d800005b6db0480d000005b00020b6400400036db6d801b6db6c100b00b60b24920000b6da0000592c000b6db6d86db6db6c005b6c00096412c06c96d93c;
   0x192c00002c92182406800006c000107f2002480592596c03db6db6080c00580492490000db6c00002490000496c920b6db6db6002db60004b00960fc4fe43e;
   0x93400002492080002c000024000007e0002400c92592c03f9249e037c00580092480000ffff000024900004924920b6db6db6002db40004900920fc4ff43e;
   0x36da00005b6d960801a00005804024320804901b0db6d805b6db6c02d800b60124924001b6db0000592c001b6db6d86db6db6c001b6c000b2412d86c96d93d;
   0x593c00016d92000080d00006c12010190402000412c92407db6db6002000c80092492002db6d80002490002496c92436db6db6002db00005920b20fc4fe43e;
   0x4d7600012492000080580002c00000082402400412c92007f92496003000c00012492003ffff8000049000249249243fdb6dfe0024900004900920fc0fe43e;
   0xb6db0002db6d80012034000d824924024304805b0db6c005b6db6c00180180002492d805b6db00001924001b6db6d82db6db6c005b6c00092416c86c96c96c;
   0x2cf6580036d920000801a0006812490010002402d92c90007db6db6002002000012496402db6d80000490002492c92416db6db0002db600049209603e0924be;
   0x3cfe5800804920000000b0002000000002482002582c80003f92496003002000002492403ffff80000490002492492407fb6ff0002db600049209203e0920fe;
   0x1b6db00100b05800000068005804920001b0580090db00005b6db6c00100500000496d805b6db00000924005b6cb6d805b6db60005b6c00092412c82d92496c;
   0xdf7d80080402000000034002000480000496000806400003db6db60020020000024b2402db6d80000490002492492402db6d80006db600049249201f0001fc;
   0xdfff801804004000000160020000000000b2000006400003ff24bc002002000000492403ffff80000490002492492400fb7f80006c9600009009201fc007f8;
   0x1b6db0012080080000000d00c00000000016c001b0d800001b6db6c001805000000b6d801b6db00000924005b6c36db00b6db00005b6c00012412400db25b6c;
   0xdb6d80180c00c00000006016000000000012000d06000000fb6db0003002000000492400db6d000004900024900924001b6c00000db0000090492007ff7ff0;
   0xf92f00080400400000002002000000000010002c100000007fedf00018060000000924007ffc000000900024900924000b60000004a0000000092003fffff0;
   0xb6db00000b0080000000080c00000000002c005828000000b6db6000180c00000016d800b6d800000124000b6c16c800024000000360000000124001b6db60;
   0x5bec00000c004000000000060000000000020064b00000001f6d80000c9c0000000920001b6000000090000090090000000000000580000000090000ffff80;
   0x920000004000000000000000000000000020024800000000bec000007f00000000120000100000000000000000000000000000001800000000900001ffc00;
   0x400000000000002480000012000000000000000000000000000000000000000000000010000000012000002c800;
   0x12492492000000000000000000000000000000000000000000000000000000000000000000000000000000000000000000000000000000000400080000000000;
   0x924924920000000000000000000000800000000000000000000920000000000000000000000120000c0000000000000000000000000080000400080000000000;
   0x6492c924000120000000900001800300000000160000000000924900004b0000000000000036d800320000000800000000000000000360000b6db60000000000;
   0x92492492000490000002480003c001800000004800000000004924800025800000000000005b6c00490000000400000000000c00000490000db6d80000000000;
   0x90010002002492000002000003c003800000004800000000004924800005800020820b2000db6d80480000002400000000002c80000410000592580000000000;
   0x6492c924025b6c800004100001b6db00000000b00000004804924920024b6000596596da05b6db60960000001b00000000005b00000924000b6db60000000000;
   0x92492492016db6c00002080003db6f800000004800000124024924900127a0006c925f6402db6d80490000002400000000006d80000492000db6d80000000000;
   0x92010002012492c00002080003c92780000000400000000402480490000fe0006c820fe406db6da0110000002400000000006d80000402000592580002410000;
   0x6492c924024924800000900001800300000004800000125804924920125b6000596596db0db6db6012c000005b0000000000db60000324800b6db6002db24800;
   0x92492492010492c00000400003c00180000002000000092012492490093db0006c925f6406db6db0012000002400000000016db2000092400c26c80036492400;
   0x92410002010000400000400003c00380000002000000012012000090007db0002c821fe416db6db0002000002400000000012db0000080400404480010492400;
   0x6492c924024924800000300001924b0000002400000092c02492492412db6c004965964a0db6db6800580000490000000002db64000064900b6496006cb6db00;
   0x92492492010492c00000080003c9258000041000000249001249249049edb4002c925f2416c925b00024000024000000000925b2000092480c04c80036492480;
   0x92490002010000400000080003ffff800004100000100900124920900becfe0024921f2412492490000580002400000000090590000090080400480012492480;
   0x6492c924024924800000120001924b00001b2000002c960024924924b6db6c005b65b6c82db6db6c000b00004b05b6c00016036400036c960b6496002d96db60;
   0xb6db6db6010092c00000080003c00180002d800000924800124924925f6db6002c925fe416db6db0000482400417dbe0004905900004b2480c04c80016c924b0;
   0x92492492010000400000080003c00380003f800000904800124920901f3dbe0024121f2417fffff0000692400cfe497c00480400000482080400480002492490;
   0x6492c92402492480010012000180030000db60000b6cb0002492492416db6d801b65b6c86db6db6c000124b00f6c925800b00120005b61960b64960005b6492c;
   0x92492492012012c00080090003c00580016fb00005b2400012492492036db6c024925f6436db6db6000090080f92492402480400006d80480492490000cb2494;
   0x92492002010000400000010003c9278001ff80002c92400012000090007dbfe026127f2437fffff6000080083f92492602400000006400400492490000492412;
   0x6492c924024924800100020001b6db0006db4000586d800024924964005b6db61b25b6c82db6db6c000124961be4924b0580000002db00000b6db6d800b6db2c;
   0x92492492012412c00080090003c005800b7f80006cb2000012492490000db6da05925f6c16c925b0000082080cb2492612400000036c00000db6db68004b2db6;
   0x92492402010000400080090003c003800ffe000024120000124924900005fffe07127c0400000010000080000792492612000000032c00000cb2496000092496;
   0x6492c92402492480010012000180030036da0000186c00002492492c00016db61b24b6c804000020000124b6036c925a2c00000016d800000b6016c000125b6c;
   0x92492492012402c00080090003c001805bfc00000c30000012492490000036da0592792c06000020000080c801b6496c120000001b6000000cb00a6000092490;
   0x92492482010000400080090003c003807ff00000048000000249249000001ffc0f927f0002000080000080c800fffbfc10000000196000000c90082000000000;
   0x6492c92402db6d800024b20001b6db0036d000000b0000000492496000002db40b24b6d801800140000065b0006db6d86000000036c000000b6016c000000000;
   0x92492492016496400012490003db6f801be000000500000002492480000016d804000b6800db6d80000090780036db60100000005b0000000cb00a6000000000;
   0x92492492002492000012480003c003800f800000040000000048248000000ff000000020005ffc00000010780017ffe0000000004b0000000c90082000000000;
   0x6db6db6c000b64000024900001800300068000000000000000b25b0000000db0000000000016d80000002d900005b6c00000000036000000086016c000000000;
   0xb6db6db6000080000002400002400080010000000000000000092400000006c000000000000360000000020000005b00000000001800000000b0006000000000;
   0x12492492000000000000000000000000000000000000000000000000000000000000000000000000000000000000000000000000000000000000000000000000].
Definition emoji_rows_97 : list N :=
  [0x20000005800160000000000000000000000000000000000000000000024000000000000024924000000000000000000000000020000000;
   0x12000000000000000030000002c001800004100000b0000002000000000000000000400000092400000000000036db0000492400000000000012000010000000;
   0x37c000000004900000300000004004000004304000b00000020000c00000000000004000004924000000000000f2490002ffff800000000000ffc00010000000;
   0x6db0000000592c00002c000000300800060b60300b6c00000586c160000120000124924001b25b0000000400016db6c02db6db6c104800004b64b0002c000000;
   0x3ef80000006496000036010000080000080db0400db60000008fe180000490000092492002c925800000120001f6db601edb6db0492400002580180012000000;
   0x3ff90000002492000016096000082000000db04005920000008ff1800000000000000000020820800000120001fe49201ffffff00924000024000c0012000000;
   0x2db6c00000c925000b0d96c00006c000061b6c300b0c00000196d90000492480012db6400496d960000024b0036db6d82db6db6c164b00000920060005800000;
   0x1fdb2000012492000c965b000003e000022490400c160000008fe1800024924000b6db20024924800000924807fedb6c16db6db2090480000480000002400000;
   0x1fd920000120920004964b000003e000032492400412000000cff1800104004000124800020924000000924007fe492412492492090080000400000002400000;
   0xdb6d80000c925000b6db6000406d02002db6d80082c160000b6db00064924b0012492400496d920000165900b6db6da2db6db6c12c100000920000000b00000;
   0x6db240001e496000096d80006cfe5a0016db6c000365b00005ffc00092492400092492002492480000092400ffedb6c12db6d92092080000c90000000480000;
   0x24b240001fcbe0000924920006fe6800124920000b05b20165ffcb00800904000325b0002092000000012003fffff7c02492492082080000480000000480000;
   0x1b6db0000db6db0016db2d80036d80000db6d800168b6d02db6db6c124964b0012cb6400496c92000002c805b6df6d824924924164900000a24000000160000;
   0x49648001fffff80092496c001b6c000165964001b2db60005fec80092492400092492002492480000012007fffff7c12492490080490000412000000090000;
   0x49248001ffffe000824120000ff0000124924001b2fb60000be000080000480000000002010000000010007fffff3812492490010492000600000000090000;
   0x12db6000db6db00124924001b6db4006db6db00365b2580496d92012492490012492400492492000016c005b6fb6d82c92492c02416580030480000002c000;
   0x12c8001efffc00192490003dfff80096596580586c06c000b60000924924800924920024924800000b0007fffff6012492490012182400182400000012400;
   0x9248001ffffc001900940027ffcc0192492480486002c0009a000080000080000000002492400000080003fffff2002492490012480400080000000012400;
   0x6db6000db6d80036496c00c36d86032db6d860b0580580496d920324924960124924004b6d920000b60005b7ff6c005924960004b60900060900000005b60;
   0x1259001ffbf0001b24b40301ffc16416596400d82806c001bec00492492480002c00002492480000580003fffff0002492480000492400030480000006c90;
   0x248001ffff0000924900101ffc000124924004020024000be400400080480002400002092400000400001ffe7f0002592c80000092000030000000002c96;
   0xdb6000db6d80036db6c001b6db4002db6d801b0d805804b6d920324924b60001800004924920005b00001b65b6c004b6db20000105900028120000005b6c;
   0x249001ffbe0001b6db0003dfff80012596400c060068005ffc004924924800024000024b6480002c00000f925f00025ffc80000082400010010000002db0;
   0x249001ffff0000b25b00031ffc80012492400c020120005ffc000924024800024000020920100020000007f25c00004be4800000804000180100000024b0;
   0x92800db6d80016db6000596d96006db6db01a0d82d800b6db0036c92db4000180000492492c02d800000b6db6400092490000016090000c004000005b60;
   0x4b001fffe0000b6db00021ff8c0092d92400c160b6000dffd800b24925800024000024924b00160000005b2480000492480000090c80010000000002d80;
   0x9001fffe000016d800020ff0c00824920004160960009ff980012492400002400002492490010000000012400000492480000012c80010002000002580;
   0x400db6c00006db6000416d860045b6c300b6c16c00596d96002db6d90000180000492496c16c000000005b0400092490000002d965820000800001b00;
   0x7ffe000036d800060be020082db01005b60b00060be0e0006cb00000024000024924960b0000000002400000492480000012082db0000000000c00;
   0x2003ff00000124800040b6030080490000590000006010030002d80000002400002492496080000000000400000092400000000000f80000000000c00;
   0xb6000000db0000c16d820000920100160000004000020000920000000800005b6db6c020000000000104000124800000000000100000000000800;
   0x2400000010010000000000000000000000000000000000000000012492490000000000000000000000000000000000000000000000000;
   0x12492490092492480492492000000000000000000000000000000000000000000000000000000000000000000000000000000000000010000000000000000000;
   0x2db6db6c36db6db65b6db6d80000000000000000006006000000000000000400000000000012480000000000002c00000002010000582d800000800000000800;
   0xb6db6db65b6db6db6db6db6c00000000002c004000b00b00000000000000060000000100004924000000000000360000000905800124b6800002c00000092000;
   0x9249249249249249249249240000000001ff80f800f00f00000000000000105000000100004924005800820000368000000104800124b6c00002400000092000;
   0x6db65b6cb6db6db65b6db6db0000000002db60b00168168000000000000020b0000012c00096d90036012580002580000006db0002db6d80000180000006c100;
   0xb6d82db65b6db6db6db65b6c00000000036db0d801b00b0000000000002482c00000092002492c805b0192c00002c000005b2d000125b6c00002c000000b2000;
   0x924804924924924924900924000000000ffff0f800f00f0000000000092482000000092002492c801b4092c00002c00000fb24000125b6c00000000000092000;
   0x6db24b6cb6db6db65b6cb6db0000000016db68b00168168000000000924b2c000000925804b2cb2016c365a00005900005b6db0002db6d80016186000012d900;
   0xb6c005b65b6db6db6db65b6c060305b60b01b0d801b00b00000100004924900800004924125924900b61b6c00492492003db6d800125b6c001b24b0000496400;
   0x9240009249049249249249241e078ffe0f00f8f800f00f000001600049249afe0002482412596590016092c00492492003dbffb00125b6c00090092000492400;
   0x6d92496cb6cb65b65b6db6db2d06cb6c16006cb0016816800002c000b6db6db60004924824b65964005965b00b6db6d805b6db6002db6d800b6196c00092d900;
   0xb64804b65b0db05b6db65b6c1e0fc5f01b00b0d801b00b00000b60005b6db6db00024924124b2c90002cb2c00d92496006db6fb00125b68005b24b6000496c00;
   0x9248049248049049249009241f0fc0e01f0010f800f00f00000924007ffffffe00124920124b2c90002402c00492492002ff7fb00b24b6400490092000492f00;
   0x6db24b6cb64924b65b6cb6db2d96c16016c000b0016816800036db00b6db6db2002492482596cb2c025b21b01b6db6d805b6db6c16db6db00b6496d800b2db00;
   0xb6d80db65800000b6db65b6c3f8fc0e00b6000d801b00b00005b6d105b6db0000092492012496592096080c00d924b6002db6db40b64b2480db2db6c00c96f80;
   0x9248049240000009249009243b9dc0e00ffc00f800f00f00105b6c907ffff0000082490012496590092080c00492492002df7db00be492400492492400c9ffc0;
   0x6db24b6cb24924965b6cb6db2d96c16006db00b00168168020b6db6436db60000124b2402cb2db6416db20800b6db6d805b6db6c06db6db01b6c16d801b6db60;
   0xb6d80db65800000b6db65b6c32d9e0e0036d00d801b00b0010db6d821b6d80000492490016492cb20b6c10c005924b6006ff6db0092492d02db00b6c02db6dc0;
   0x92480492480000092490092439f9e0e001ff00f800f00f00104924821fff80000402480012492cb0092c00400492492006ff6db0092492d82490092403fbefc0;
   0x6db24b6cb64924b65b6cb6db69b0c160005b00b0016816800db6db6436db6000092492002596cb2402d804800b6db6c00db6db6016db6db05b6016d801b6db60;
   0xb64804b65b0db05b6db65b6c30f9e0e0002d00d800b00b0016db6d827b6db0002492480012cb2490036c96c005924b6016db6d80096c96d82db00b6c02db6f80;
   0x92000092490490492490092430f8e0e0001f00f800f00f0002492482302030000480400012496490036090400492492016db6c8009ec9ed824b0092403ffff80;
   0x6d924b6cb6cb65b65b6cb6db60b0c160001b00b0006006000db6db6c301060000924900024b2d96406c36030036db6c00db6d80016db6db05b6016d805b6db00;
   0xb6c005b65b6db6db6db65b6c307060e0000400400000000006db6db07124300024924000125924900b04b01805924b6016db6800096db6d82db00b6c02db7d80;
   0x92400492492492492490092400400000000000000000000002c92490712030000492000002492490000490080492492016db6000092db6d824b0092403fbfe00;
   0x6db25b6cb6db6db65b6cb6db00000000000800100160160000b6db0036596000092c800004965920000b6000036db6c00db6d80016db6db05b6016d805b6db00;
   0xb6d82db65b6db6db6db6db6c00000000000c005800b00b00005b6d007924b00004920000024924800005800005b24b6006db6000092db6d82db01b6c02dbfc00;
   0x92482492492492492492492400000000001f00f800f00f00005b6c007924b0000090000000492480000080000092490002db60000924b6d82de00f6c03dff000;
   0x6db65b6cb6db6db65b6db6db00000000001b00b0016016000036d800b6db6c000164000000b24b0000000002036db6c005b6c00016db6db05b6006d805b6c000;
   0xb6db6db65b6db6db6db6db6c00000000000c00d800b00b00000120005b6db00000900000000924000000000000b24b0000db0000092496d82d80016c03ff0000;
   0x12492492492492482492492400000000000400400000000000000000012400000000000000000000000000000000000000080000092496d80400000000480000;
   0x24924924124924900924924800000000000000000000000000000000000000000000000000000000000000000000000000000000124924900000000000000000].
Definition emoji_rows_98 : list N :=
  [0x12492490092492482492492412492490092492482492492400000000092492480092490000092000092492482492492412492490092492482492492412492490;
   0x124924924924924824924924124924924924924824924924000000004924924800924900001ff800492492482492492412492492492492482492492412492492;
   0x6db6db6cb6db6db65b6db6db6db6db6cb6db6db65b6db6db00000000b6db6db6036db6c00036d800b6db6db65b6db6db6db6db6cb6db6db65b6db6db6db6db6c;
   0xb6db6db65b6db6db6db6db6cb6db6db65b6db6db6db6db6c000000005b6db6db01b6db00001ffc005b6db6db6db6db6cb6db6db65b6db6db6db6db6cb6db6db6;
   0x924924924924924924924924924924924924924924924924000000004924924900000000003ffc00492492492492492492492492492492492492492492492492;
   0x6db6db6cb6db6db65b6db6db6db6db6cb6db6db65b6db6db00000000b6db6db6012492000036d800b6c92db65b6492db6db6db6cb6db6db65b6db6db6db6db6c;
   0xb2db6db65b6db6db6db65b6cb6db6db65b6cb65b6db65b6c000000005b6596db0092490000192c005b0002db6d80016cb6cb6db65b6db6db6db6db6cb6db6db6;
   0x90492492492492492490092492492492492492492492492400000000492412490000000000000400490000492480012492492492492492492492492492492492;
   0x6cb65b2cb64924b65b6c96db6cb65b6cb6d96cb65b6c96db00000000b6cb2db60024920000924900b6db24b65b25b6db6d92db6cb6db65b65b2492db6d92496c;
   0xb05b2c965b0000db6db00b6cb61b0db65b60b05b6db00b6c124924925b6596db00124800004924005b6db05b6c06db6cb6016db65b6d80db6d800b6cb6c000b6;
   0x90482412490002492490092492090492492090492490092412492492492192490012480000010000492490492412492492012492492480492400092492400092;
   0x6cb2592cb6c925b65b6492db6c964b6cb6c964b65b6496db6db6db6cb6cb2db6002492000092c900b6db6cb65b2db6db6c92596cb65b24b65b2496db6db2496c;
   0xb04820165b6006db6d80016cb60101b65b00805b6d80036cb2db6d965b0002db00124800024100805b6db05b6c16db6cb6002cb65b2c005b6d805b6cb6d800b6;
   0x90402012492002492480012492010092490080492480012412492492490000490002400000010000492490492412492492002092490400492400092492480092;
   0x6c92492cb6d92db65b2492db6c92496cb64924b65b2492db6db6db6cb6c925b6000480000492c920b6db6cb6592db6db6d92496cb64925b65b2496db6db2496c;
   0xb00000165b6c165b6c00002cb60000365800005b6c00006cb6db6db65b6196db00024000020100805b6db05b6c16db6cb6c000b65b0002db6d800b6cb6c000b6;
   0x9000001248000049249009249200001248000049240000243bff6dde492082490000000000010000492490492412492492400092490002492400012492400092;
   0x6c92492cb64924b65b6c96db6c92496cb64924b65924925b6db6db6cb6c925b60004800004964920b6cb6cb65b2db6db6db2496cb6492db65b2492db6d92496c;
   0xb04020165b0000db6db00b6cb60100b65b00805b6db6db6c96d92db25b0000db00024000025800805b65b05b6c16c36cb6d800b65b0016db6d90016cb60020b6;
   0x9040201249000249248001249201009249008049249249241eddbff2490000490000000000000000490480492402412492480092490012492412002492002092;
   0x6cb2592cb6c925b65b6492db6c964b6cb6c964b65b6db6db6db6db6cb6d965b60024920000924900b64925b65b2492db6db2496cb6492db65b2c925b6c92596c;
   0xb0582c165b6006db6d80016cb60b05b65b60b05b6c92492c96d92db25b6086db0012480000400480590002db6d80002cb6d800b65b0016db6db6006cb6016cb6;
   0x90482412492012492480012492090492492090492400002413fffdd2492082490012480000000000480002492480002492400092490002492492412492012492;
   0x6cb65b2cb6d92db65b24925b6cb65b6cb6d96cb65924925b6db6db6cb6d965b60024920000924900b6492db65b6c92db6d92496cb64925b65b6d92db6d92db6c;
   0xb05b2d965b6c36db6c92492cb65b2db65b6cb65b6c00002c96db6db25b6c86db00924900000924005b05b6db6db6c16cb6db6db65b6db6db6db6c36cb6cb6db6;
   0x92492492492412492492492492492492492492492492492412492492492492490012480000082400492492492492412492492492492492492492492492492492;
   0x6db6db6cb6db6db65b6db6db6db6db6cb6db6db65b6db6db24924924b6db6db6012492000036d800b6cb6db65b6db6db6db6db6cb6db6db65b6db6db6db6db6c;
   0xb6db6db65b6db6db6db6db6cb6db6db65b6db6db6db6db6c000000005b6db6db00924900001ffc005b6db6db6db6db6cb6db6db65b6db6db6db6db6cb6db6db6;
   0x924924924924924924924924924924924924924924924924000000004924924900924900003ffc00492492492492492492492492492492492492492492492492;
   0x6db6db6cb6db6db65b6db6db6db6db6cb6db6db65b6db6db00000000b6db6db6036db6c00036d800b6db6db65b6db6db6db6db6cb6db6db65b6db6db6db6db6c;
   0x36db6db65b6db6d82db6db6c36db6db65b6db6d82db6db6c000000005b6db6d801b6db40001ffc005b6db6d82db6db6c36db6db65b6db6d82db6db6c36db6db6;
   0x12492490092492480492492012492490092492480492492000000000092492480092490000092000092492480492492012492490092492480492492012492490;
   0x924924824924924000000000000000000024000124924900924924824924924024924800004800000000000000100000924924824924924;
   0x2db6db6c36db6db60000000000000000001b6c005b6db6d82db6db6c36db6db6036db6c00012480000092000000080002db6db6c36db6db6;
   0x2492492412492492000000000000000000492400492492482492492412492492012492400012480000092000080080402492492412492492;
   0xdb6db60024924905b6db6db6db6db6c000000000000000001b6db00b6db6db65b6db6db6db6db6c02db6d80016db6400016d800120b60925b6db6db6db6db6c;
   0x1ffffff0092492406db6db6cb6db6db6000000000000000002db6d805b6db6db6db6db6cb6db6db60024920000b24b00000b6000492db0486db6db6cb6db6db6;
   0x1ffffff8000000002492492492492492000000000000000002492490492492492492492492492492002492000480812000018000487ffe082492492492492492;
   0xdb6db68124924905b6db6db6db6db6c00000000000000000d96d960b6d92db65b24925b6d92cb6c004924000b2592c00082c00096db6db25965b6db6db6db2c;
   0x1ffffff0092492486c36db6cb6db6cb60000000000000000160b60b05b6016db6c00002cb6c101b60024920005800360020b60004b6496c86c30db2cb2d96c16;
   0x1ffffff80000000024124924924920920000000000000000120120904900024924000024924100920024900004c00320025b6c0043e083c02430492490492412;
   0xdb6db68124924905b25b6db6db6c96c00000000000490002c96c96cb6c925b65924925b6d92cb6c004924001964925805b25b0006c925b25965b65b6cb25b2c;
   0x1ffffff0092492486c02db6cb6db00b6000490000036d800360360b65b0000db6c00002cb6c101b6002492002c00002402c905800b2592d06c30d82cb0582c16;
   0x1ffffff800000000240049249248009200000000003ffc0012010012490000492400002492410092000490002c00012402c101800f0180782430482490080412;
   0xdb6db68124924905b2496db6db2496c00092400002db6006c92c96cb64924b65924925b6d92cb6c000924005924965805b24960164924b05965b25b6c924b2c;
   0x1ffffff0092492486c000b6cb6c000b600249000003ff800b60104365800005b6c00002cb6c101b6000490002c00592c06500ca0192592586c30c02cb0080416;
   0x1ffffff800000000240001249200009200000000003ffc0092010412480000492400002492410092000080002500c864060004a0180180582430002490000012;
   0xdb6db68124924905b24925b6c92496c00092400002db6006cb2c92cb64924b65924925b6d92cb6c000120005b2592d80c924960364924b45964925b6c92492c;
   0x1ffffff0092492486c00002cb60000b600249000003ff800b60104365800005b6c00002cb6c101b6000080002c00002c06010030192d92586c30002cb0000016;
   0x1ffffff800000000240001249200009200000000003ffc0090010412480000492400002492410092000080002000000406490030180d80182430002490000012;
   0xdb6db68124924905b2492db6d92496c00092400002db6006cb2492cb64924b65924925b6d92cb6c00092000592492580db6c960364924b45965925b6c924b2c;
   0x1ffffff0092492486c000b6cb6d800b600249000003ff80030580c165b00005b6c00002cb6c101b6000490002c000024064960b0192492586c30c02cb0080416;
   0x1ffffff800000000240049249248009200000000003ffc0010480412490000492400002492410092000080002400002406006030180000582430482490080412;
   0xdb6db68124924905b24b6db6db6496c00092400002db4002cb25b2cb64924b65924925b6d92cb6c004924004b6496580c925960164924b05965b25b6cb25b2c;
   0x1ffffff0092492486c02db6cb6db60b6000000000000000030582c145b0002db6c00002cb6c101b6002492002480036406002cb01b2492586c30d82cb0586c16;
   0x1ffffff8000000002412492492492092000000000000000010482410490002492400002492410092000080002580812402200c800f0000702430492490492412;
   0xdb6db68124924905b2db6db6db6d96c00000000000000002cb65b2cb6c925b65924925b6d92cb6c004924004b6592c805b2496006c925b05965b6db6db2db2c;
   0x1ffffff0092492486cb6db6cb6db6db6000000000000000012592c905b6c96db6c92492cb6cb65b60024920024b00b2402c105800b2492c06cb2db6cb6db6d96;
   0x1ffffff8000000002492492492492492000000000000000002492490492492492492492492492492000080002492592400c1058003e007c02492492492492492;
   0xdb6db68124924905b6db6db6db6db6c000000000000000005b6db60b6db6db65b6db6db6db6db6c00492480492db64800b25b0002db6d805b6db6db6db6db6c;
   0x6db6db0012492406db6db6cb6db6db6000000000000000002db6d805b6db6db6db6db6cb6db6db6016db6c024924924005b6c00016db6006db6db6cb6db6db6;
   0x24924924124924920000000000000000004924004924924824924924124924920124924024924924000b6000013ffe002492492412492492;
   0x5b6db6d82db6db6c00000000000000000016d80036db6db65b6db6d82db6db6c02db6d80492492480002c000004b64805b6db6d82db6db6c;
   0x2492492412492490000000000000000000012000092492482492492412492490012492400492492000000000000000002492492412492490].
Definition emoji_rows_99 : list N :=
  [0x92492480000000000000000000480000000000000000000000000000000000000000000;
   0x2c00000090002000080036db6db6000000002c800000000b60800000000000000000000100000000000000000000;
   0x24900000020800100104005b6db6db0000000012400000010db0400002000000010000000080000000000000000000;
   0x24900000020000100304005b6db6db0000000002480000010ff0400002000000000000000080000000000000000000;
   0x300000005800000020000000100000005b6c000924b2006cb6d800b6db6db6016db64005b60000020b6080002db00000124000000100000000000000000000;
   0x5800000020000000100000000800000024900020924900905b64005b6db6db05b6db6002490000002ff00000b6d80000092000000080400000000000000000;
   0x4800000020000000000000000000000024900000b3c900124b6400582db6db2ffffffc00490000003ffc0005b6db0000000000090000400092490000000000;
   0x300000005800000020000000100000001b6c004b6db6c82db6db0cb25b6db65b6db6d80096c000101b6c000b6db6c00092490002012090016db6c000924900;
   0x5800000020000000100000000800000024900025b6db64164b6d92592db6db6db6db6c004920000004b0080db6db60024924800104904001ffff8000492480;
   0x480000002000000000000000000000000490000ffefbe0164b6d92582db6db7ffffffe00492400000430082db6db60000000000004900001ffff8000000000;
   0x300000005800000020000000100000120b60905b6db6d82db6db6cb64b6db6db6db6db0032c900100920105b6db6d00492492000492400036db6c000924900;
   0x580000002000000010000000080000090492482db6db6c36db6db25b25b6db6db6db6c00092400000490006db6db60124924800024920001ffff8000492480;
   0x480000002000000000000000000000092492482ffecbfc36db6db25b07b6db7fd64bfe00092480000000006db6db60000000000024920001ffff8000000000;
   0x32d80000592400002490000012480036db6db01b6db6d86db6db6cb6cb6db65b64b2d800164900120b60105b6db6d82492492000492480036db6c000924900;
   0x5b6c80002490000012480000092400092492482db6db64b6db6db05b25b6db0d965b6000092480080db0006db6db68124924804924920801ffff8000492480;
   0x4964800024920000124000000004000924924805ffff60b65b65905ba0b7db0f8001e000090080080db0006596cb28000000004824920801ffff8000000000;
   0xb6db00005b6d80002492400092490016db6db0096db6c86416c128b6c96db61b6cb2d80006492012096c104b0582d80492492490492492036db6c000924900;
   0xdb6d80002492400092490000492480092492482096d904000300005b64b65b0d965968000124900124b24800020000024924904924920801ffff8000492480;
   0x4924800024920000004000000024000924924800000000000300005b60b01b3c00007c000100900000320800020000000000000024920001ffff8000000000;
   0x1b6db0000db6d80012492400092490016d92db64924924900020000b6d96cb65b2cb25800024b6c10492400000580000492492400492400036db6c000924900;
   0x2db6d800124924000924900004924800924924820000004000300005b6c925b6db6db6c000124900824b20000020000124924920024920001ffff8000492480;
   0x24b2d800124920000124900000820800920824800000000000300005b6c005b7ffffffc000124100801b00000020000000000000024900001ffff8000000000;
   0x1b6db0002db6d800124924000924900164100904924924900020000b6db25b65b6db6db0000d92c10492490000580002492492400092400036db6c000924900;
   0x2db6d800124920000924900024924800000800024000024000300005b6c92db6db6db6c000120000024920800020000124924920104900001ffff8000492480;
   0x24924800124920000000000000100000000000000000000000304005b6c02db7ffffffe000020000000800800020300000000000100004001ffff8000000000;
   0x1b6db0002db6d800124920000924900000300004924924800020300b6db2db65b6db6db0000492400492410000586002492492402400080016db60000924900;
   0xdb6c000124920000924900004924000004000024900924000304005b6d96db2db6db6c00002000002492000002030012492490010080400000000000000000;
   0x4924000024920000000000000000000004000004000020000104005b6db6db2db6db6c000020000000000000020a0000000000000080400000000000000000;
   0xb6d800005b6c000024920000924800000b00000b2492480002da00b6db6db60924924800005920004924000001b60000000000000100000000000000000000;
   0x5b6c00002490000012480000092000002400000092490000016c005b6db6db0000000000000490000490000000d80000000000000080000000000000000000;
   0x920000004800000000000000000000004000000124800000020005b6db6d80000000000000480000000000000400000000000000080000000000000000000;
   0x24000000900000004800000020000000800000004900000000000124924900000000000000100000100000000000000000000000100000000000000000000;
   0x12492490092492482492492412492490000000000000000012492490092492482492492412492490092492480000000000000000000000400000000000000000;
   0x16db6db25b6db6d82db6db6c12492492000490000002400016db6db25b6db6d82db6db6c16db6db25b6db6d80002400000010000090000400000000000000000;
   0x6db6db6cb6db6db65b6db6db6db6db6c00492400002492006db6db6cb6db6db65b6db6db6db6db6cb6db6db6002db2000016d800120000900000000000000000;
   0xb6db6db65b6db6db6db6db6cb6db6db60124920000924900b6db6db65b6db6db6db6db6cb6c92db65b6cb6db0092490000492400090000480000000000000000;
   0xb6db6db65b2db6db6db6db6c924924920124924000924900b6d82db65b6012db6d900b6cb60005b65b6c36db0092490000492480490000480000000000180000;
   0x6db6db6cb65b6cb65b6db6db6db25b6c02492490092492406db24b6cb6c925b65b6492db6c92496cb6d92db6036d96c005b6db60920000920020000000300000;
   0xb6db6db65805b05b6c92db6cb6c805b60924924004924920b6c025b65b0000db6d82416cb64800b65b6002db0492492002492480490082490010000000580000;
   0x905b6c025805800b6c00db6c924004920924924004924920b20820165920005b6c12482cb65900365b6002db0482412002492090490000480000000000580000;
   0x64b6d924b2cb65965924b6db6d92cb6c12592c90092492486c96596cb64924b6592cb65b6db6c92cb6c925b60b6db2d80d96d960124924920020000000300000;
   0x820b60825965820b6c16db6cb6cb61b6096cb64824924924b61b6c365961801b6cb65b2cb6db60165b6c36db0492492012092090012492400010000000580000;
   0x920920925861820b6c16db6c9209209209ecb7c824b24f24b00820165961800b60b65b0cb6db60165b6c36db2480012412012010000010000000000000580000;
   0x6d92496cb2db65965925b6db6d96d96c16c925b2496c96486c964b2cb2cb6496596cb65b6db6d92cb6d92db61b2c92d82c92c92c00592c000020000000300000;
   0xb6c005b65b6186db6c824b6cb60b60b64b24924824b25b24b0c025965961800b61b65b0cb6cb60165800001b2482412412010010003cbe000010000000590000;
   0xb6c005b65b6186db6cc0016c920920924924924824f24f24b0c105964160000b60b65b04b04b60065800001b2402402410012010003efe0000000000005b2800;
   0x6d92cb6cb6d92db6596492db6d96d96c925b6c92496c96496db2cb2cb2d92496596cb6cb6c96d92cb64924b6592492582c96492c005b6c80002492000036d900;
   0xb6cb61b65b6196db6cb0d86cb6cb61b6496cb64824b24b24b0436496536c000b61b65b0cb00b6c065b6c36db2492092410082012003cbe0000124900005b6d80;
   0xb60b60b65b6096db6cb0d82c92c12192496492482492492490036002436c800b61b00b04800b60065b6c36db24800124124824920024120000124000007fef80;
   0x6d96d96cb6d92db65b65b65b6d924b6c96c925b2492492496db2cb2cb2db6496596496cb6c96d92cb6d92db6596cb2d82db65b6c004924800124924000b6db00;
   0xb60b60b65b6896db6db2db2cb6c805b65964924824924924b2d90d965b6db00b61900b0cb64b60165b6c36db2482412412492492002592000092490000db6d80;
   0xb60b60b65b6096db6da2db2c924824924924924824924924b0c00596496c100b60824104b64b60165b6c02db2482412412492490000180000000400000dbef80;
   0x6d96d96cb6d92db65b65b65b6db65b6c36c925b6492db2486c964b2cb2d92c965924b25b6cb6d92cb6d925b61b6496d82db24b6c004924000124964001b6db00;
   0xb6cb61b65b6c96db6db2da2cb6c825b60924924824b6d924b64b6036596c301b6c16582cb6db60165b6402db2492492412480490002490000092490002db6d80;
   0xb6c121b65b6c16db6db0d82c92400492092cb24804b25f20b6082036586c101b6c16582cb6db20165b0002db0490092012400490010000000002000002df7f80;
   0x6d924b6cb6d92db65b64b25b6db24b6c165b6cb0096496486c96596cb65b6cb6592cb65b6db6c92cb6c92db60b2492d80db24b60124924920124920001b6db00;
   0xb6c005b65b6c36db6db0416cb6c825b6092db24804924920b60b60365b2db05b6c16486cb6db00b65b6436db0492492002400490490492480092490002db6d80;
   0xb6c825b65b6c16db6db6016c92582c920925924004924920b64000965b05805b6c80016cb60800b65b6436db0492492002400480490000480000000002dbed80;
   0x6db6db6cb6d92db65b6d96db6db65b6c02492490092492406db24b6cb6c925b65b6492db6c92496cb6d92db6036db6c005b65b60920000920124920001b6db00;
   0xb6db6db65b6cb6db6db6db6cb6db6db60124924000924900b6d92db65b6416db6db00b6cb64005b65b6c36db0092490000492480490000480092480000db6c00;
   0xb6db6db65b6cb6db6db6db6c924924920024920000924900b6d92db65b6496db6db24b6cb6c025b65b6c36db00924900004924000900004800000000005b6c00;
   0x6db6db6cb6db6db65b6db6db6db6db6c00492400002492006db6db6cb6db6db65b6db6db6db6db6cb6db6db6002db2000016d80012000090002490000036d800;
   0x36db6db65b6db6d82db6db6c36db6db6000490000012480036db6db65b6db6d82db6db6c36db6db65b6db6d800024000000120000900004000124000001b6000;
   0x12492490092492480492492012492490000000000000000012492490092492480492492012492490092492480000000000000000000000000000000000010000].
Definition emoji_rows_100 : list N :=
  [0x100000000000000000000000100000005800024924924124924900924924824924924124924900924924824924924124924900924924824924924;
   0x514100000180000000000000012000000180000006c00036db6db65b6db6d82db6db6c36db6db65b6db6d82db6db6c36db6db65b6db6d82db6db6c36db6db6;
   0x78e3800001800000000000000fe0000007c000001ed80036db6db65b6db6d82db6db6c36db6db65b6db6d82db6db6c36db6db65b6db6d82db6db6c36db6db6;
   0x30c30000036000016016c00016d800000b6000002db0006db6db6cb6db6db65b6db6db6db6db6cb6db6db65b6db6db6db6db6cb6db6db65b6db6db6db6db6c;
   0x1861800005b00005b01b60001ffc00000ff0000037d800b6db6db65b6db6db6db6db6cb6db6db65b6db6db6db6db6cb6db6db65b6db6db6db6db6cb6db6db6;
   0x186080000ff0000ffc3fe0001ffc00003ff800003ffc00b25b6c165965b6db6db6412cb2492db65b64921b6db24b6cb6d824965b20b6db6db2496cb0492496;
   0x145140001b68001b6cb6d80036d800005b6c00002db6006cb6db2cb2db65b65b6d925b6c925b6cb6d924965b6496db6db2492cb6496db65b6492db6c92492c;
   0x186180002db0002db65b6c001ffc00007ffe00003ff800b65b6c36586082db6db6082cb0002db65b60005b6d80036cb6d904165b0436db6d80402cb2000016;
   0x186180003ffc003ffffffc003ffc0001ffff00001ff800b61b6cb6582080db6db6082cb0092db65b60905b6d82416cb6c10436582416db6c02492cb64104b6;
   0x30c140005b6c001b6db6d80036d80002db6d80002db0006d96d96cb25924b65b6cb65b6c96db6cb6db2cb65b2db2db6db2c96cb65b2db65b2d965b6db6cb6c;
   0x596580006db6002db6db6c001ffc0003ffffc0001ff800b60b60b65900005b6db6586cb00b6db65b61945b6d96d96cb6c10cb6586d96db6cb6cb2cb6c365b6;
   0x71c78000ffff003ffffffc000ff00003ffffc0001ed800b60b60b65900020b6db0586cb0416db65b61905b6c16d86cb6410cb6582c96db6cb6cb2cb6c365b6;
   0xb2cb0002db6d801b6db6d805b6db6006db6db0002db4006d96d96cb2cb24965b6cb65b6cb2db6cb6db2cb65b2db2db6db2c96cb65b2db6596d965b6db6cb6c;
   0xc30c00016db6c02db6db6c07ffffe00ffffff0001ff800b6cb61b65961860b6db0586cb0416db65b61945b6c16d86cb6010cb6582d12db6db6c92cb6c365b6;
   0xc30c0003ffffc00ffffff007fffff00ffffff0000ff000b64920b65965924b6db0586cb0482cb65b61905b6c16d86cb6010cb6582c005b6db6c02cb6c365b6;
   0x186180006db6db00b6db6d80db6db6016db6db0000db0006c92492cb6db6db65b6cb65b6cb65b2cb6db2cb65b2db2db6c92c96cb65b24b65b6db6db6db6cb6c;
   0xc30c00036db6c00db6db601ffffff01ffffff8001ff800b00000165b6db6db6db0d86cb0582c365b61945b6d96d96cb6410cb65b04161b6d96db6cb6c365b6;
   0xc30c0003ffffc007ffffe01ffffff81ffffff8001ff800b0000016596592db6c10d86cb05904365b61905b6d86c16cb0410cb65b04160b6c02db6cb6c365b6;
   0x186180002db6d80036db6c00db6db6816db6db0002db0006d96d96cb2d965b65925b65b6db6c96cb6db2cb65b25b2db6cb2c96cb6cb2d965925b6db6db6cb6c;
   0xc30c00016db68001b6db401ffffff01ffffff8003ff800b6cb61b6582082db6080d86cb6db01b65b61945b6c82c12cb6410cb65b64161b6cb2db2cb6c365b6;
   0x10c30c0000ffff0001ffff001ffffff00ffffff8003ffc00b60b60b65820005b6080d86cb6db01b65b61905b6002c00cb6410cb65960161b6cb2db2cb6c365b6;
   0x20b2cb04005b6c00016db6000db6db6006db6db0006db6006d96d96cb24924b65965b6db6db6c96cb6cb6cb65925925b6cb2db6cb2cb24b6596db65b6db6cb6c;
   0x20596586006db60000b6db0007fbfff00bfdbfc000ffff00b61b6cb65900025b6092db6cb6db00b65b65b6db6db6db6cb6016db65961805b6cb2d82cb6c365b6;
   0x30186186003ffc00003ff80003fbef8003ffdfc000ffff00b61b6cb65900820b6000db6cb6d90c165805b6db6c92492cb6016db65801805b6c92406cb64104b6;
   0x6010410c001b6c00002db00000b2cb0000c36580016db6806cb6d92cb2cb65965924b6db6db65b2cb24b6db65924925b6d92db6cb64b6db65b2492db6c92492c;
   0x30000016000db0000016d8000003e0000007e00001ffff00b65b6c36596596cb6c905b6cb6db6c16582db6db6c00002cb6c16db65905b6db6c800b6cb0000016;
   0x18000018000ff0000007c000000fe0000007f00001ffff80b25b6c165965b6cb6db00b6cb6db6c96582db6db6c92492cb6c02db65b2db6db6d924b6cb0492496;
   0x2d80016c000b6000000580000016d800001b6c00036db6c06db6db6cb6db6db65b6d96db6db6db6cb65b6db65b6db6db6d965b6cb6db6db65b6db6db6db6db6c;
   0x6c805b00005800000000000005ffc00007ffe0001f6df00b6db6db65b6db6db6db6db6cb6db6db65b6db6db6db6db6cb60b6db65b6db6db6db6db6cb6db6db6;
   0x2fb7f80000180000000000003ffff8003ffffc001b6db0036db6db65b6db6d82db6db6c36db6db65b6db6d82db6db6c360b6db65b6db6d82db6db6c36db6db6;
   0xb6db00000100000000000005b6db6002db6d80016db6c02db6db6c36db6db65b6db6d82db6db6c36db6db65b6db6d82db6db6c36db6db65b6db6d82db6db6c;
   0x92000000080000000000002492480012492400092490012492490092492482492492412492490092492482492492412492490092492482492492412492490;
   0x92492480000000000000000000000000492492000010000000000000000000012492490000000000000000000400000092492480000000000000000;
   0x12480036db6db60020000000000000000100005b6db6d80002c00000000000000000002db6db6c100000120005b00000b00b0036db6db6002db2000016c800;
   0x4924005b6db6db0010000000010000000080006db6db6c000360000000100000000000b6d92db6480000480016d80002d80d805b6db6db00b6db0000092000;
   0x5b6db6db0010000000010000000480006db65b6c000360000000000000000000b6d82db6400000080016580002d80d805b6db6db0092490000092c00;
   0x4924920b6db6db60024000000024000000b60005b6cb6db0582c16000492480000080006db65b6c32000096002c30000db65b60b65b6db6036db6c00016d800;
   0x24924805925925b0012000000012000000490006db01b6c06cb61b00124924000024000b6d824b6490002480010180016d82db0582db6db05b6db6000096c00;
   0x5801801b0012000000012000000490006db00b6c06db6db00000000000124800b6d824b6080000480010180016d82db0580db6db0492492000496c00;
   0x4924920b65b64b6000480000002c000000b60005b6d96db0db6db6012492490012492406db6496c164004b0000c30002db01b6cb65b2db61b6db6d801b6db00;
   0x12492490582db01b00024000000be000000490006db2cb6c06db6db04924924000924900b6db6436092012400016d80036d00db6592406db2db6db6c02496c00;
   0x5804901b00024000000be000010490406c12c82c02d82d804000000000800100b6d92436010002400006c00036c805b65b2002db2492492400482000;
   0x24924924b6c924b6000490000012c80016cb65b05925925b01b00b4010492490030082c06db2496c02c82580000580006db61b6cb6c965b65b2db25801b64000;
   0x124924905960801b00024800000be4005b6496d86db00b2c02c005800124924804800160b6c005b6012492000012c800b6d825b65b00b2db2c02c02c00490480;
   0x5860821b00024800000be4005b6496d86cb00b2c02c001800000000004800120b60825b6002012000016d800b64924b05b00b6db2002400400490490;
   0x24924924b6cb65b6092492000092c900b6db6db65965965b25800164025b6d90086082406d965b6c00592c00002db6006c36d860b6c96db65965964b00b60b6c;
   0x124924925b65b2db04924900004be4005b6c96db6c02c06cb6c001b6016db6d80c800320b6416db6002490000016d800b00920005b6192db61b20b0400400490;
   0x5b05b2db04924920004be4005864960b6c02406cb60000b6002492480c000020b6c005b6000410000002c000300920005921805b2092090400000490;
   0x24924924b6cb65b6012492480092c900b05b6c065b24b2db6d80016c02db6db0182086186db6496c000b2000000180006016d800b64b2cb64b6cb6cb0c000b60;
   0x124924925b65b2db00924920004be480400cb00a6c02c06cb6c001b60124924808300808b6db61b6002490000402c020000920005804b61b61b04b0416c00490;
   0x5b6482db00924000004be480000c90006cb00b2c12c001900024924000100808b6d900b6000480000c02c020000924005824f71b2090490416c00490;
   0x24924924b6c925b6002480000492c920001b6c005964965b05800360025b6db0592492486db24b6c024b64901b01805800b6db00b6596d965925925b2d90096c;
   0x124924905b6416db00124000024be480002db0006db00b2c02c005800324924824900924b6c02db6012492402d02c06c00482c005a2db6db2c02c02c36c80092;
   0x5b6c16db001240000249a480002db0006c82412c02c005800324924824900924b6c82db6012412002d82c16c004824805e2cb6cb2412482412490492;
   0x24924924b6db6db60004900004924920001b6c005925925b05b25b6002db6db6492492486d925b6c02582c800b01805805b01b60b6596d965b6db6d82db60b6c;
   0x124924905b6006db0002400002492490002db0006db2cb6c06db6db00104b21804900920b6c92db6012012c00402c060024005805b2cb69b2db6db6c12490d92;
   0x5b6006db00004000024be490000c90406db24b6c06db6db00100000800000000b6d805b6012002400502c060024004905b3cb61b0492492012490d90;
   0x4924920b6db6db6000090002496c924025b6c805b6d96db0db6db6000812410000480006db64b6c16c825b0030180c00d80036cb65b2cb60b6db6d82db6cb6c;
   0x24924805b6c36db00004800124be490036c96c06db01b6c06cb61b00100300800024000b6d905b6090410480182c140120000b05b6d905b05b6db6012490db0;
   0x5b6cb6db0000080012492490016496806db25b6c020360800100200800124800b6d82db6480000480182c300120000905b6d80db0492492002490590;
   0x924900b6db6db6000012002492492400db6d805b6db6db0002c00002002006002490006db25b6cb2000016016d96002c00006cb6db6db6016db6c000160100;
   0x4924005b6db6db0000080012492492000080006db6db6c000360000300300000124800b6db6db65800001b0036d800100000105b6db6db00b6db0000080000;
   0x5b6db6d80000000000000000000080002db6db6c00034000000000000000000016db6db27800000e0016d800000000005b6db6d80012480000000000;
   0x24000124924900000020000000000000100000924924800024000020000020000000024924924100000120004900000000000124924900004900000000000].
Definition emoji_rows_101 : list N :=
  [0x92000000000000000000000012000092492480000000000000000000490000000000000092000000000000000000000092000;
   0x800020000004001ffc000000000000000000000b64005b6db6d80000000000002000000ff00000000000001ffc000004900000800000001ffc00;
   0x12000db24925b00b6db00124804800005b0000016db00b6db6db60024800000004000000b60000024920000b6db00001b6c000b6c800000b6db00;
   0x10000000080007ff6dbfe02db6d80092002400036d80000016d905b6db6db0012400000002000000db00000924900005bec80002db60005b2000002ffff80;
   0x38000000080007ffffffe03ffffc00000000000bfff0000000d905b6db2db0000000000002010000ff0000080010000010000002c96000492400003ffffc0;
   0x6c000000100005b6db6da0db6db6002402490016db6c000000b68b6db6db60924924000804020001b6c000b6492c00c924960001b6c001b6d80000db6db60;
   0xf6000000080002db6db6c16db6db00100100001b6df40000005b05b0db2db2492490000400090003ffc000592492016010030002db6002592400017fffff0;
   0xfe000000080003ffffffc1ffffff80000000007ffffe0000004b05b0db0db0000000000412000000490000c0001e01e0100380025b200249240001ffffff8;
   0x16d800000360000b6db6d82db6db6c024020100b6db6c000000b6cb6cb65b6492492400082482000092000092492d82c92c92c005b6d801b6db0002db6db6c;
   0x5f6c000005b0000582c16036db6db6010010000db65f60000004b65b0db2db24924920000924000004b00024924b243e0be03e006db6c02d92c8003ffffffe;
   0x7ffc00000cb0000703c0e03ffffffe000000000ff25ff0000024965b0db0db00000000000924000000800005f003003c0ff01e01249240249248003ffffffe;
   0xb6d80000192c000b0180c06db6db6c024804901b6c96d800005b2cb6cb65b64924924800124900020920004b6492c86cb6d92c00db6d801b6db6006db6db6c;
   0xfb6c00000590002592c964b64924b6092012400df25f68000024164b0d905b24924924000924800004900024924964b27ffc9e012db6402cb65900bffffffe;
   0x3ffff00000180007ffffffef000000e000000001ffe7ff800012406410c805b00000000020924920804900000800100f07ffe1e012492400c924900fffffffe;
   0x1b6db00000b60005b6db6db6492492d104804801b6cb6d80002d80cb2cb24964924924904924924121b6c104b64964964b6db2d02db6db00b6db6c06db6db6d;
   0x3fb6d80000590006db6db6cb0000006080002002ff6dfec00012006590c120b0492492402092492080db00825b24b64f05ffc06012492400d92cb20fffffffe;
   0x3ffffe00007d000070000e0f00000060000000005ffffe0000920065800100300000000000004800100300800b00b00201ffc020124924004924920fffffffe;
   0x5b6db60000b60000b0000c06492492d104804800b6db6d80016c004b64965960124924800124900024924904924924924b6d92402db6db00b6db6d86db6db6d;
   0x7db6df0002c960005000060b00000160900024005b6db60000900065b05b2cb00024000024924800024b20824924924101ffc02016db6c005965964fffffffe;
   0x7fffff800601600070000e07249249e0000000004124820004900025b05b0cb00024000000000000000300007800160001ffc0001249240009249247ffffffe;
   0x2db6db6c02c925800b0000c06db6db6c024804900804904000b60004b6cb65b60105b2002492490000492400496496c82496d92400db6d80016db6da6db6db6c;
   0x3fdb7db80b2492c00500006036db6db60120120004000020004800005b0db2db00824900124924800025b20024b24b2410092410016db6c000b6cb2c3ffffffe;
   0x3ffffff809000058070000e03ffffffc0000000000000000024800005b0592db0080490400000000000030000c8001201a000018002492400012492c3ffffffc;
   0x6db6db6c124924900b0000c02db6db6c02402010030000c005b00000b6cb65b6010db20b24924924004924801b2492582d92496c005b6d80000db6da2db6db6c;
   0x3edb7dbc092592400500006016db6db00100100000800100024000005b6082db000248041249249000249200059249601fc001f0006db6800002cb7c1ffffff0;
   0x3ffffffe00218200070000e01ffffff00000000000800100124000005b6002db040200040000000000018000058001e01fc001f0002492000000497c1ffffff0;
   0x6db6db6c02db6d900b0000c00db6db6002402490006496002d800000b6d92db6180580402492492400492400092492400db24b60005b6d800000b6d80db6db60;
   0xffdb7fb6096596400580016002db6d80092012400016d800120000005b6db6db0480402012492492002492000092490003f80f80002db60000001b7c03ffff80;
   0xffcb6fb6006186000f8001f003ffff800000000000024000120000005b6db6db0080402000000000000000000000000003f80f80000492000000097003ffff80;
   0x6db6db6c02db6d901b4002d800b6db0012480480000580002c000000b6db6db6006030c024924924000924000024920000b65b00000b6c00000002c000b6db00;
   0xb6db6db6096596400f8003f8005b6c000800020000000000000000005b6db6d80090002002492490000480000002400000580c000004900000000160005fec00;
   0x12492492002082000480012000012000000000000000000000000000092492480000000000000000000000000000000000000000000000000000000000012000;
   0x400000002000000080000000c000000000000000000000000000000000000000000000000000000000000000000000000000000004000004120000000000;
   0x120000001f0000000f8000001e0000000000000800000020000000100100000800000020000000100100000020000000000000000360000021b0000080000;
   0x1f8000003f800005ff000000000000180080003c0240001e010000180080003c0240001e0100000020000000000000000fe000090402000092000;
   0x12480000036c000001b0000036d800000000000368b60005b05b0002d86c800368b60005b05b0002d86c800004000000000000000b6c00036c805000164b00;
   0x920000001f0000003c800001b20000000000000b4590002d82c80016c960000b4590002d82c80016c96000002000000000000002db6000496c020005b2580;
   0x18000000300000003000000000000001e4900001f2480002c9200001e4900001f2480002c92000012000000000000002ffe0004020000021f80c0;
   0x2400000012000000190000002400000002490000db6000016d900000b6c80000db6000016d900000b6c80002d800000001900000b6c000801801804b6c960;
   0x30000000480000002000000030000000012480012c900000b6c800005b6000012c900000b64800005920000124000000024800000b60008820800065b64b0;
   0xf00000004800000020000000f0000000000000002c80000017c000000f0000002c800000164000000f00000124000000004800000160000807c00181fe030;
   0x16c00000090000002c80000016c000000024900024b0000092580000496c000024b0000092580000496c00016d900000921b0000000400180196002cb6d96c;
   0x190000002c80000012000000190000000012480092480000492400002490000092480000492400002490000092480000490480000002000012c100325b64b0;
   0x1800000004000000100000001800000000000000000000000000000000000000000000000000000000000000924800000000000000020000020100301fe018;
   0x36010000590000002c80000036010000002490412492002092480090492400412492002092480090492400036c920004b2cb0000000400182182882cb6d900;
   0x5b0400002c920000160800001b0400000012482492480010492400492492002492490010492400492492000492490000db6d000000020000800100325b6000;
   0x1f00000024000000120000001f0000000000000080090000c00080016010000080090000c000800160100004924900004104000000020000000000300b0000;
   0x364000005b2000002d800000364000000124904b64b2c025b2590092d92d804b64b2c025b2590092d92d800b6c92402492492400000400012592006c82c000;
   0x5a0010002c004000360020005a0090000192482496d940125b6180496db2c02496d940125b6180496db2c00492490012d92490000002000092c90032010000;
   0x3c00900024004000120020003c00900004c00004165100104b20800825b00004165100104b20800825b0000492490010492480000002000092490010010000;
   0x36c16c005b00b0002d80d80036c16c004b6490492db2002496d900b25b6400492db2002496d900b25b6400092c92402db6db6000092400092db6c80002c000;
   0x5f80b0002d80d80036c160005f80b0002492482496d800124b64004925b2002496d800124b64004925b2000002000036db6db00024920025b6db2400010000;
   0x7f8090002f80480037c120007f80900024000004864800024b64000925b00004864800024b64000925b000000200001fffff80012492400492492000010000;
   0x36c160005b20b0006d90580036c160124924924b6db64025b65b2096db6c904b6db64025b65b2096db6c90492492482db6db6406db6db04b6c96d80000c000;
   0x5920000028904000104000005920000924924824965920125b2c90492c964024965920125b2c90492c964024924920924924920925b24825b25b6400016000;
   0x96092000490490002c02400096092000490490002c02400000000012492492092492482092490400006000;
   0x2c90400032402000592010002c90400092492492492d92d92496c96c925b25b2492d92d92496c96c925b25b2092492406db6db6c36db6db6592db2580000c000;
   0x30402000592000002c80400030002000492482482496c924124b2492492592482496c924124b24924925924824924900924924924925bac82492492400006000;
   0x300000000000000020000000300000000004004000024820000124100000900800024820000124100000900824924900124924924925fbc82492492400006000;
   0x2000c000300060005000800020004000300800804924b64924925b2492496c924924b64924925b2492496c925b6db6db6db6db6cb6db6db65b6db6d82492d924;
   0x30006000000080002000c000300060004824024024924924124924924924924824924924124924924924924824924924924924924924b6c90492492012496492;
   0x60000000b0002000480000006000492492480000090000000480000002400000090000000480000002402492492412492492492492480492492012492492;
   0x580000002c000000b4000000580016db6db64924924824924924124924924924924824924924124924925b6db6db6db6db6c36db6db6016db64024924924;
   0x80000000000092492480000000000000000000000000000000000000000000000002492492412492492092492480002400012492492].
Definition emoji_rows_102 : list N :=
  [0x400000002000000080000000000000000000000080000000000000000000000080000000000000000000;
   0x20124920000000000000900000004800000120000001f0000000f8000009e0000001b0000000d800000960000001b0000000d800000960000000900000004000;
   0x105b6d90000000000002480000012000002490000003f8000001f800006ff0000002d80000016800002db0000002d80000016800002db0000000480000012000;
   0x101b6db0000000000000480000012000002490000003f8000003fc00007ff8000003f8000001f800003ff0000003f8000001e800003fb0000000000000000000;
   0x4b6db60000000000000900000024800000920000001f0000003d800005b68000001b0000002d800005b60000001b0000002d800005b60000000900000024800;
   0x592db0000000000000400000012000000090000003d8000003e0000001b0000002d800000160000001b0000002c80000012000000190000000400000012000;
   0x1925b0000000000000000000000000000000000001c0000001e0000001b0000000400000012000000090000000400000012000000090000000000000000000;
   0xcb6db60000000000004800000024000000320000005b0000002c00000032000000590000002c000000320000005900000024000000320000005800000024000;
   0x145b6db00000000000060000000b00000005800000060000000b00000005800000060000000b00000005800000060000000b00000005800000060000000b0000;
   0x1e1b6db0000000000012000000090000000c800000120000001b0000002f80000012000000090000002d80000012000000090000002c80000012000000090000;
   0xcb6db6000db6c00002c80000016400000590000006d80000036c000005b0000002d80000036c000005b0000002d80000036c000005b0000002c800000164000;
   0x165b6db0012492000012000000190000002c800000368000005b0000002d800000368000005b0000002d80000016000000590000002c80000012000000190000;
   0x121b6db0012492000012000000080000003c000000328100004b0000003f80000012000000490000003c80000012000000090000003c80000012000000080000;
   0xcb6db6002db6c80002c920000364900005b2480006db6400036db00005b6d80006d96400036db00005b6c80002d92400036c900005b2480002c920000364900;
   0x164924900124924000164800005b2000002c90000036d800005b6c00006db0000036d800005b6400006db00000364800005b2400002d900000164800005b2000;
   0x400000012492400012000000490000003c00000012400000492000007c00000012400000490000003c00000012000000490000003c00000012000000490000;
   0x492492002db6580002c004000360020005a0090002c004000360020005a0090002c004000360020005a00b0002c004000360020005a0090002c004000360020;
   0x20924800124924000360120005b00b0002c00c800360120005b00b0002c00c800360160005b00b0002c00c800360160005b00b0002c00c800360160005b00b0;
   0x20924800924930000360120001b0090003f804800360120001b0090003f804800360120001b0090003f804800360120001b0090003f804800360120001b0090;
   0x412492016db6590002d80d80036c16c005b41b0002d80d80036c16c005b61b0002d80d80036c16c005b41b0002d80d80036c16c005b41b0002d80d80036c16c;
   0x12092480092493400036c120005b20b0002f80580036c120005b60b0002fb0580036c120005b60b0002f80580036c120005b20b0002f80580036c120005b20b0;
   0x100924800924830000330020005b0090003f80400033d020005be090003fb0400033c020005b2090003f904000334020005b2090003f904000330020005b0090;
   0x2092492016db2590002c90400032402000592000006cb0400032d82000596000002cb0400032502000596000002cb0400032402000592000002c904000324020;
   0x10492480092497c800104000004020000020000000b04000125860000160300000b0400010582000002030000090400000482000002010000010400010402000;
   0x492480092487882400000010000000180000002db0400016d060001b6020002c90400012402000192000002490400012402000192000002400000010000000;
   0x2092492036db2592592000002c904000324020005b60b0002db0400036c060005b60b0002db0400036c06000592080002c90400036402000592000002c904000;
   0x10492480492497c82000400030002000180000002000400030006000180000002000400030006000180000002000400030002000180000002000400030002000;
   0x12092480492487c020004000300020000000800020004000300060000000c00020004000300060000000c0002000400030006000000080002000400030002000;
   0x4924900b6d925924000b0002000c000300060004000b0002000c000300060004000b0002000c000300060004000b0002000c000300060004000b0002000c000;
   0x4924900000000020004800100060000000b00020004800100060000000b00020004800100060000000b00020004800100060000000b0002000480010006000;
   0x492490000000000000480000002c00000018000000480000002c00000018000000480000002c00000018000000480000002c00000010000000480000002c00;
   0x924920000000000000100000000800000024000000100000000800000024000000100000000800000024000000100000000800000024000000100000000800;
   0x400000000000000000000000000000000000000000000000000000000000000000000000000000000000000000000492492002000080;
   0xb0000000400000002000000000000000000000000000000080000000000000000000000000000000000000000000000000002492492407c001f0;
   0x4800000864000004b2000000580000002400000492000092400000436000006580000092c000004120000020800000000000120000005b6db6db0db00b68;
   0x82400000cb60000065b00000924000004920000024900004924000165b60000b2c90000492400002082000092400000000000490000002492492410500c10;
   0x10000000fbf000002590000092480000010000000080000082000016db60000924900004924800004100000000000000000000800b0002492492410180c18;
   0x24900000b6d80000db6800016db0000092480000492000092490000db6d90016db6c800b6db0000492490012492482492492412416c90596db6db2010180c;
   0x92480000db6c00006db2000092480000492000002490000492490016db6d800b6db2c00492490002492480092490412492492092492482412492430182c14;
   0x10080000fbfd0000259200009249000009000000008000008208001ffb6d80092592400492490000410400000000000000002000492482012492410183c18;
   0x24920000b6db0000db6d80016db6000092490000492400496492406db6db60b6db6d805b6db6c024924920124924864924924124b6db0592db6db2c36582c;
   0x92490000db6d00006db60000924900004924000024920024924900b6db6d805b6db6c02492492092492480492492492492492012492402412492416586cb0;
   0x10080000fbfd000025920000924900000900000000800000020800b6df6d80492596412492490000010400000000010000012000090002402492407f83ff0;
   0x24920000b6db0000db6d00016db6000092490000492400492492416db6db61b6db6d82db6db6c12492492092492482c92492c024960005b25b6db05b25b60;
   0x92490000db6d00006db60000924900004924000024920124924901b6db6d82db6db6c12492492092492480492492412492492012480002402492400092000;
   0x10080000fbfd000025920000924900000900000000800000020801bfff6d82492596412492490000010400000000002000090010000002482492400002000;
   0x4024920160b6db0080db6d00416db6002092490080492402492492436db6db65b6db6d82db6db6c12492492092492482592496402c920005b25b6db00024000;
   0x20924900b0db6d00c06db60120924900904924004024920124924925b6db6da2db6db6c12492492092492482492492412492492012490002480492400012000;
   0xb0db6d004824920020924900000000000000000000004105b6fbffc24924b2c12492490000402080002092400400480092000002480492400010000;
   0x482492006cb6db00b0db6d00596db6002092490090492402492492436db6db65b6db6d82db6db6c124924924924924824b24b2416d924005b64b65b00064000;
   0x2092490034db6d00596db60024924900104924000824920124924905b6db6d82db6db6c12492492492492482492492412492492092092002490482400092000;
   0x90000016fb6d000964920024924900004800000020000000100005b6db6d82492492412492490000080000000000002482480092010002490002400090000;
   0x92c92002db6db0016db6d000b6db6002492490012492402492492436db6db65b6db6d82db6db6c12492490492492482596596406c02cb65b6c925b00164800;
   0x492490016db6d000b6db60004964900124924000924920124924905b6db6d82db6db6c12492490092492482492492412492492012016482490002400082400;
   0x2000016df6d000924920004924900000800000004000000100001b6df6d82492492412492490000080000000000012012010012002482490002400080000;
   0x92492000db6db0016db6d000b6db6000492490012492402492492436db6db01b6db6d82db6db6c12492490092492482c92492c02c005b05b6c92db00300800;
   0x492480006db6c000b6db60004924900024924000924920124924901b6db6d80db6db6012492490092492480492492012492492010002c02492012400400400;
   0x2000006dbec000925920004924800000100000000000000000000b6db6d80492492002492490000000000000000010000002010002402492092400400000;
   0x125920005b6da0006db6c000b6db6000492480002492400492492006db6db00b6db6c005b6db6002492490012492402492492402c00da05b6d96db00800100;
   0x92480002db6c00036db0000492480002492400012490002492480036db6c001b6db6002492480012492400092490000000000010012002492492400400080;
   0x2db6800012490000092480000000000000000000000000016db6c00092490000492480000000000000000000000000010002002492492400000000;
   0x124900000b6d80000db6000016db00000924000004920000124900005b6d80006db6000096db0000492480002492000000000002000c005b6db6db00800100;
   0x124000005b6000002d80000012400000090000002480000092400002db6000016d80000092400000490000002480000000000000010002492492400000000;
   0x90000000400000000000000000000000000000000000000090000000400000000000000000000000000000000000000000000000000000000000].
Definition emoji_rows_103 : list N :=
  [0x4000000000020000000800000004000000020000000800000004000000000000000000000000000000000000000000000000000000;
   0x5800000000000160000000a00a0000000c000000160000000a0000000c00000016000000000000000000000000000000000000000000000000000000;
   0x78000000000001e000000090090000000400000002000000090000000400000002000000000000000000000000000000000000000000000000000000;
   0xc000060b6000000000006d80000016c068000000b0000000d800000068000000b0000000d800000000020000000b00000804000000020000000800000004000;
   0x1e0000f07e00000000000fec000004b4030000000580000006c00000030000000580000006c00000000080000080c00000c06000010080000080400000402000;
   0x1f8001f87f00000000000ffc00000492012000000080000002400000012000000080000002400000000000000180c00000402000010080000000000000000000;
   0xd80036836000000000036db0000092c02c000000160000001b0000002c000000160000001b00000004120000161b0000180c00000c160000120800000804000;
   0x17c007f01f00000000007ffc000024960160000000b0000000d800000160000000b0000000d800000020800000a0c00000c16000012080000080400000400000;
   0x7f00ff01f80000000007ffc000024920020000000900000004800000020000000900000004800000000000000a0c00000412000002080000000000000000000;
   0x5b01b6016c000000001b6d80000492400580000002c80000036000000590000002c000000360000004100000161800000b2c00000c160000120800000824000;
   0x2f83f800fe000000003dff800012490002c80000016c000001b2000002c800000164000001b00000020800000b2c00000c10000002080000080400000410000;
   0xfe7f8003e000000003dfe000012480000480000012d800000924000004900000120000000900000000000000b2c00000410000002080000000000000000000;
   0xb6db0002d80000000db6c000024920004b2400006db60000b6db00005b6c00002d92000016c900004100000065900000b2c800004120000020900000924000;
   0x5ffc0003f80000001ffbc0000924800025920000b6db0000db6d00012d92000096c900004b24000020900000b2d80000532c00002090000012080000412000;
   0x1ffc0001f80000001ffb00000924000004900001bedf00024b2c800124920000024800000120000000000000b6190000492480002490000000000000000400;
   0x16d80000d80000006db6000012490002496c800b6db6c005b6db0002db6d800924b6000492590000492480006db6c000b6db00005b2d800024924000120900;
   0xfe000007c000000fffc0000492400092492000db6db0016db6d800924924004924900024924800024920000b6db00005b2d80002492400012490000492480;
   0x1ff800007e000800fff80000492000000000002db6db80124924800924924000000100000000800000020000ffff0000496480002492000000400000000400;
   0x36d800005b0016016db00000924800124924805b6db6c02db6db6016db6d80092492402492490000492480016db6c000b6db0000db6d800124924000924900;
   0x7f7c00003f805f00fff00002492000092492402db6db6036db6d804924924024924900124924800124920001b6db0000db6d80012492400092490000492480;
   0xff7f00001f807e00ffc00002490000000010002db6ff60124924800924924000000800000000000004820001bfff80005b6480012492000012480000090400;
   0x1b65b00001b41b6036d80000c92400012492c805b6db6c02db6db6036db6d804924b6402492492002492480036db6c001b6db0002db6d800124924000924900;
   0x3f82f80000fc3f804bf800012490000492496402db6db6036db6d804924964024924920124924800124920001b6db0002db6d80012492000092490000492480;
   0x7f80fe00007e3f80496000012480000000092402db7fb60124b6d800924924000024920000124800000000001b7db0002492480012492000002000000010000;
   0xdb00b6000036db05b6400002d920000124b25b05b6db6d02db6db6036db6db0492492c024924b6002492480036db6c001b6db0002db6d800124920000924900;
   0x1fc005f00001ffc02490000012480000092492c02db6db6016db6db0092492c024924960124925b00124920001b6db0002db6d80012492000092490000492400;
   0x1fc001f80001ffc02080000012400000092092400ff07f2016c86d900920924004904920124024900000800001b7db0000492400012492000000000000010000;
   0xd80016800016d80410000002db00000124024b00b60b6d80d805b6816406db0092092580480496800492400016db60000b6db0000db6c000124920000924900;
   0x60000b00000fe0020800000324000000000121800005b2c00006c10000012180000482c000024100024900000b6d800005b6c00002492000012480000492400;
   0xfe000400000072000000000000080000580400002000000010080000000400000000000000000036d80000492000002490000000000000000000;
   0x6c00590000006000000000000006000010080000000400000006000000080000000400092000002db0000016c800000b60000004900000124000;
   0x10000000000000000000000000000000000000000000000000000000000000000000000000000002400000010000000080000000000000000000;
   0x10080000000000000000000000000000000000000000000000000000000000000000000000000000000000000000000492492012492490;
   0x16c36000000000000000000000000000000000036db6db6080000082db6db6c00010000000000002db6db6c000000005b6db6d82db6db6c;
   0x10000016006c001b65b00000100000000800000024000000b6000492492482c00002c12492492000080000000000012492492000400006db6db6cb6db6db6;
   0x3c0000bfc1fc001fe7f800003c0000000000000000000001ff000492492483c00003c12482492000010000000000012482492000400006db65b6cb6d82db6;
   0x6c00016db6db0036db6c00006c00000012000002490000036d800b6db6db65b0000d86db65b6c00092000000180006db65b6c000800105b6cb6db6db65b6c;
   0x3e0001b6db6d805b6db60000360000000800000124800005b6c00492492492d80016c92482492010480400000800092482492000400486db65b6cb6d82db6;
   0x3e0007ffffffc03ffffc00003e000000000000000000000fffe00482490080f8001f010482412010080000001800010482412000400486db00b6cb6d82db6;
   0x6c00036db6db6036db6c00006c000000120000124920001b65b00b25b6c960b6006d06cb65b2c02010080010180c06cb6592c000900905b6d96db6db65b6c;
   0x3e0005b6db6db01b6db4000036000000080000090090000d82d804804900905b00b6092482492090080080083c30092082412000400406db2cb6cb6d82db6;
   0x3e0007fffffff01ffff800003e000000000000000000003f00f804804800801f00f80120820920900000000f3cf0012082012000400006000000cb60000b6;
   0x6c000b6db6db6016db6c00006c000000120000120120001b00b00b64b64b6016c36806d96596c02010090006db6006d92496c000900005924925b6d92496c;
   0x3e0005b6db6db00b6db0000036000000080000090090002d00d804900804900b65b009248249201008240003ffc0092402092002480006c86c32cb60000b6;
   0x3e0007ffffffe00ffff000003e000000000000000000003f0040049000048003e7c001241049208200248001ff80012400092002480006c86c12cb64824b6;
   0xdb6db60b6db6db6006db6000006c000000120000120000001b00000b6c925b6002db4006db24b6c10492412002db4006d924b6c024924005b2db25b6db65b6c;
   0x1ffffff05b6db6da0036d80000036000000080000090000000d90000492002490016d800924824920004900000bff90092400492092492006c16d86cb6d82db6;
   0x3ffffffc7ffffffc001ff8000003e000000000000000000000ff4000492002480007e000000800020000800007ffffe000000002092492006c16d86cb6d82db6;
   0x2db6db6c36db6db6002db0000006c000000120000024800000b6c000b6d92db6000db00064924924000120001b6db6d864924924124924805b2db2db6db65b6c;
   0x1ffffff01b6db6d80006d000000360000000800000124000005b6000492002490016d800924824920004900000bff90092400492092492006c16d86cb6d82db6;
   0x24be4901ffffff80003c0000003e0000000000000000000001fe00049000248001ff8001240049200001008001ff80012400492002480006c16c82cb6d82db6;
   0x6c00016db6db0000580000006c00000012000000490000016c000b6c925b6006db6006db24b6c12410490002db0006d92496c00490000596db25b6db65b6c;
   0x3e0000b6db6c000008000000360000000800000024000000360004900804900b65b009248249201008240003ff80092402092002480006c86c32cb6d82db6;
   0x3e00003ffffc0000000000003e00000000000000000000001e0004800804800f81f0012082092010000400073cc0012002092002402006000000cb6d82db6;
   0x6c00002db6d80000080000002c00000010000000080000002c000b64b64b6036816c06d96596c12010090006186006c96492c000904005924925b6db65b6c;
   0x3e000016db6c00002c000000100000000800000004000000160004804900905b00b6092482492090080080083c30092082412000402006db2cb6cb6d82db6;
   0x3e000007ffe000007c000000000000000000000000000000000004804900807c003e010482412010080000181810010082412000402006db00b6cb6d82db6;
   0x6c000005b6c00000db00000024000000100000000800000004000b25b6c961b4002d86cb65b2c02012080030180406cb6592c000924805b6c96db6db65b6c;
   0x3e000002db4000016d80000034000000080000000400000016000492492492d80016c92482492010480400000800092482492000402006db65b6cb6d82db6;
   0x3e000000ff000000ff0000003e00000000000000000000001e000492492483e00007c12482492000490000000000012482492000402006db65b6cb6d82db6;
   0x2c000000b6000000db0000006c00000012000000090000002c000b6db6db65a0000586db65b6c00092000000180006db65b6c000804005b6cb6db6db65b6c;
   0x10000000080000006c00000036000000080000000400000016000492492482c00002c12492492000080000000000012492492000402006db6db6cb6db6db6;
   0x3c00000010000000000000000000000010000092492480000000012492490000000000000000012492490000000002db6db6c16db6db2;
   0x800000000000000000000000000000000000124924900000000024924924000100000000000024924924000000000924924824924924].
Definition emoji_rows_104 : list N :=
  [0x12492490000490000000000000000000092492482492492412492490092492482492492412492490092492480000000000000000092492480000000000000000;
   0x12492492002ff00000000000000000007ffffffc2492492412492492492492482492492412492492492492480000000000000000492492480000000000000000;
   0x6db6db6c00db6d800000800024924924b6db6db65b6db6db6db6db6cb6db6db65b6db6db6db6db6cb6db6db60000000000000000b6db6db60000000000000000;
   0xb6db6db6016db6c000024000124924927fffffff6db6db6cb6db6db65b6db6db6db6db6cb6db6db65b6db6db00000000000000005b6db6db0002c00000000000;
   0x9249249203ffffc000024000000000007fffffff2492492492492492492492492492492492492492492492492db6db6c17c005f0492492490007c00000000000;
   0x6db6db6c06db6db00004800024924924b6db6db65b6db6db6db6db6cb6db6db65b6db6db6db6c96cb6db6db65b6db6db6db65b6cb6db6db60005b00000000000;
   0xb6d92db60b6016d800024000124924927fffffff6db24b6cb6db6db65b6db6db6db65b6cb6db00b65b61b6db6db6db6c125f7db65b6db6db0007e00000000000;
   0x924004921f8003f800024000000000007fffffff2490092492482492492492492490092492480092492092496db6db6c000fe000492492490007e00000000000;
   0x6db24b6c36c001b40004900024924924b6db6db65b6496db6db65b6cb6d96db65b6cb6db6db24b6cb6c96db65b6db6db0006c000b6db2db60005a00000000000;
   0xb6c105b65b0000d800024000124924927fffffff6db00b6cb6d82db65b6c16db6db6596cb6d82db65b6036db65b6db24000f60005b6c36db0002c00000000000;
   0x924100927e00007c00024000000000007fffffff24900924924804924924124924100824924024924900124900b00900001c7800492012490000000000000000;
   0x6d92c96c360000360924924824924924b6db6db65b6496db6db24b6cb6d92db65b24b25b6db2db6cb6c92db65b24925b00341800b6d92db60000000000000000;
   0xb6c361b65800005b24924924124924927fffffff6db00b6cb6c005b6592402db6c02406cb6c16db65b61b6db6d86c16c00780c005b60125b0000000000000000;
   0x920120927800001f24924924000000007fffffff2490092492400092480002492480012492412492492092496c02c02c00600600490000490492492002492490;
   0x6d96c96cb40000364924924824924924b6db6db65b24925b6d92496cb64924b65b6492db6db2db6cb6d96db65965965b00b00b00b64924b61b6db6d82db6db6c;
   0xb60360b65800001b04924920124924927fffffff6c00006cb60000b65800005b6db00b6cb6c16db65b61b6db6cb2cb2c00c007805b00005b3ffffffc3ffffffc;
   0x920120927800001f04924920000000007fffffff24000024920000924800004924900924924124924920924968b09b0c00c00380480000493ffffffc3ffffffc;
   0x6d96c96cb40000360124924024924924b6db6db65b2492db6c92496cb64924b65b6492db6db2db6cb6d96db6596d96db01800300b64924b61b6db6d82db6db6c;
   0xb6c361b65800001b00924900124924927fffffff6d80016cb6d80db6580002db6d80016cb6c16db65b60b6db69b01b0c00c001805b00005b0492492012492490;
   0x920120927800001e00124800000000007fffffff24800124924804924924024924000024924124924920924979b01b0c01c00180492012490000000000000000;
   0x6d92c96c360000360024920024924924b6db6db65b6496db6db24b6cb6d92db65b24b25b6d925b6cb6d96db6596d96db01800300b6d92db60000000000000000;
   0xb6c101b65b00005800924900124924927fffffff6db00b6cb6d80db65b6c16db6d96596cb6c02db65b60b6db6cb2cb2c00c001805b6436db0000000000000000;
   0x924004921f00007800924900000000007fffffff2490092492480492492412492490092492402492492012496c02c02c00c00780492412490002c00000000000;
   0x6db24b6c36c001b40124920024924924b6db6db65b6cb6db6db24b6cb6d96db65b6cb6db6db25b6cb6d925b65b2db2db00b00b00b6db2db60005a00000000000;
   0xb6c805b61b6002d800924900124924927fffffff6db65b6cb6d80db65b6cb6db6db65b6cb6c96db65b6c02db6db6db6c00780e005b6db6db0007e00000000000;
   0x924824920fe007f800924900000000007fffffff2492492492492492492492492492492492492492492480496db6db6c00783c00492492490007e00000000000;
   0x6db6db6c06db6db00124124024924924b6db6db65b6db6db6db6db6cb6db6db65b6db6db6db6db6cb6db65b65b6db6db0036d800b6db6db60005b00000000000;
   0xb6db6db6036db6c000900900124924927fffffff6db6db6cb6db6db65b6db6db6db6db6cb6db6db65b6db6db2db6db6c000fe0005b6db6db0007c00000000000;
   0x9249249201ffffc000800100000000007fffffff2492492492492492492492492492492492492492492492490000000000012000492492490003c00000000000;
   0x6db6db6c00db6d800100024024924924b6db6db65b6db6db6db6db6cb6db6db65b6db6db6db6db6cb6db6db60000000000000000b6db6db60000000000000000;
   0x36db6db6002db20000000000124924907ffffffe2db6db6c36db6db65b6db6d82db6db6c36db6db65b6db6d800000000000000005b6db6d80000000000000000;
   0x12492490000480000000000000000000092492480492492012492490092492480492492012492490092492480000000000000000092492480000000000000000;
   0x24000000b60000005900024924924124924900924924824924924124924900924924824924924000920000005900024924924124924900000000000000000;
   0x492400002ff600003ff80036db6db65b6db6d82db6db6c36db6db65b6db6d82db6db6c36db6db6002db2000016d80036db6db65b6db6d80000000000000000;
   0x741e0000f00f0012492492492492482492492412492492492492482492492412492492007ffe0000bfff0012492492492492480000000000000000;
   0x4b2c92002c00580016002c06db6db6cb6db6db65b6db6db6db6db6cb6db6db65b6db6db6db6db6c02db6d80016db6c06db6db6cb6db6db60000000000000000;
   0x25b6c80030000c005800160b6db6db65b6db6db6db6db6cb6db6db65b6db6db6db6db6cb6db6db6036db6c005b6db60b6db6db65b6db6db0000000000000000;
   0xdb2c000e00006004000060924924924924924924924924924924924924924924924924924924920ffce2e007b6f9e092492492492492490010010000000000;
   0x4965920160b6c30080d90586db25b6cb6d92db65b6492db6db2db6cb6c92db65b6cb6db6db65b6c16d964b00b24b2d86db25b6cb6d92db60024024000000000;
   0x2db2c80182ffc180c1ff828b6c005b65b6016db6d80016cb6d86db65b6006db6db05b6cb6d805b61a61b0180c925968b6c805b65b6c06db0012012000000000;
   0x6b2400183ffc08303ff80c924004924920024924800124924824924900024924900924924004921e25f8583cb6793c92400492492002490012012000000000;
   0x4b2c920305b6c06502db6086d924b6cb6c925b65b2492db6db25b6cb6c925b65b6496db6db24b6c365b6db6596db2586d924b6cb6d92db60124924800000000;
   0x2596c80607c3e0e60305f04b6c101b65b6182db6d824b6cb6d82db65b6486db6db00b6cb6c161b65b2cb0d82cb6492cb6c101b65b6c16db0092492400000000;
   0x8040060783c0660001f06924100924900824924804924924804924925824924900924924120927f3cc01e7cfe43fc924100924920124900824824f003c006;
   0x4924920a0582c06400016036d92c96cb6cb65b65b65b6db6db64b6cb6db25b65b6496db6db2db6cb6d96cb6596db6db6d92cb6cb6d96db6012092086006c00c;
   0x2492480407c3e0360000f06b6c361b65b6082db6db0db6cb6d905b65b6002db6db0cb6cb6c12db65b2cb0db6cb65b6cb6c165b65b6c36db00804824100c2018;
   0x2000407c3c0340000f02924100924920024924904924924004924920024924904124924024927c0c907f7c0079fe92412492492012490080480418083010;
   0x4b6db20805b6c02c00006836d924b6cb6c925b65b64b6db6d924b6cb6c925b65b6492db6db25b6cb6c924b65b2db2db6db2db6cb6d96db6010090080c101820;
   0x2fb6f80402ffe0360000f06b6c005b65b6082db6db05b6cb6c101b65b6096db6db0c16cb6c02db65964905b6d90c06cb6c06db65b6c36db0480000406180c30;
   0x7c925e04007fc0340000f029240049249008249249009249241009249009249249041249241249279e4905f7f98c82e92482492492012490400000006300c30;
   0x4924920800b6c02400016036db25b6cb6cb65b65b6c96db6d92c96cb6cb6db65b6492db6d92db6cb2d92db65b6d96db6db25b6cb6d96db60900000005b00b60;
   0x2492480400fbe0360000f06b6c06db65b0582db6db61b6cb6c361b65b01b6db6d80006cb6c365b6596090da6d94d96cb6d80db65b6c36db0400000003c00580;
   0x601f3c0660001f0692402492490082492492092492410092490092492480002492412092797c98ce7d9cf9fc92480492492012490400000000000000;
   0x2c92492c305b2c06402cb60a6db25b6cb6c925b65b6c96db6d92cb6cb6c965b65b64b6db6d92c96c36596db6596cb2da6db64b6cb6d96db60800000000000000;
   0x12492492507c3e08203efc0cb6d82db65b6082db6db60b6cb6c005b65b6082db6db0db6cb6c001b65a6c10d82d96596cb6c005b65b6c36db2400000000000000;
   0x90000012187c3c08303ff80c924804924920024924920124924004924920024924904924924000921e3c80f8399e19fc92400092492012492400000000000000;
   0x6c92492c10582c10182db0186db64b6cb6d92db65b6d96db6db24b6cb6d925b65b64b6db6db24b6c164965b0192d92d86d924b6cb6d96db64800000000000000;
   0x92492492082010180c16c020b6db2db65b6c96db6db6cb6cb6d92db65b6c96db6db2db6cb6d92db60b25b0d80c16c960b6c925b65b6cb6db2400000000000000;
   0x900000120e00006004000060924924924924924924924924924924924924924924924924924924920fedfae004bfc9e092492492492492492000000000000000;
   0x6c92492c060000a0030000c06db6db6cb6db6db65b6db6db6db6db6cb6db6db65b6db6db6db6db6c06db6da0036db6c06db6db6cb6db6db64800000000000000;
   0x9249249201e003c001800300b6db6db65b6db6db6db6db6cb6db6db65b6db6db6db6db6cb6db6db6016db6c001b6db00b6db6db65b6db6db0000000000000000;
   0x9000001200741e0000f00f0012492492492492482492492412492492492492482492492412492492007ffe0000bfff0012492492492492480000000000000000;
   0x6492492c005b6c00002db6002db6db6c36db6db65b6db6d82db6db6c36db6db65b6db6d82db6db6c005b6c00002db6002db6db6c36db6db60000000000000000;
   0x10000012000590000002c00012492490092492482492492412492490092492482492492412492490000490000002400012492490092492480000000000000000].
Definition emoji_rows_105 : list N :=
  [0x0;
   0x0;
   0x0;
   0x0;
   0x1073f00683e00000000000900000000000001800018000000000200000002003fc000100000808000000009000000000000000000000;
   0x300400864100946b0000000800090080000000000098001000000000030000013000040000180000808000000000000000000000000000000;
   0xcc060086410186410000000800080080000000000098001000000000030000013000040000100000008000000000000000000000000000000;
   0x4406006c430106008164861908f94bcc860f04860fbcb01b0c860161920061e7fa4c86030990183c968f0fb4d8091619e1e00000000000000;
   0x86050038410002008193898988d9389a89b103990998d81d9a8981b353003211328cc401135826c4998d988cec091b37b2100000000000000;
   0x860480307f000200801098898909089098a18090909908109098001213001211324c8401921002869990900cc409212112100000000000000;
   0x84064030c3010200c06090c90909090090c1009fd9898418409e0008120037f2126c860126100e0490908c04c209309337f00000000000000;
   0x86046010c13d0241818090098b0908909001808080990810909980121300101932128400b2183c0698b092848409212110180000000000000;
   0x840fe010c1018641011098898909089098a1809090990810909881121300121132320400a2102086989090c4c409212112100000000000000;
   0x86c860020d301ec330130929989990900929b0092998990198098c120120131b21231860061b06b6c90998c84cc09321331b00000000000000;
   0xc30c400107f00f01e00f08f31b0f909908f0c008f00b0f017109b00e2130110c36233040040d83c30988e978438091e2110c00000000000000;
   0x40000000000080000401000000000000000000000;
   0x800000000000000000000000000000000000000000000000000000000000100000000000020000000000080004c01800000000000000000000;
   0x30000000000080003c00c00000000000000000000;
   0x0;
   0x18fc0000007c000060800000000000004000001000000020300000000000000000000000000000000000000;
   0x90400000086000040c00000004000004000018000000120200800000000000000000000000000000000000;
   0x90400000082000040800000004000004000018000000100200c00000000000000000000000000000000000;
   0xc264b47990c07b47806044360b0586780c307864b00f3d30c960321b00f00000000000000000000000000000000000;
   0x44d4cc6c90404cc6c16046cc0cc6cdec04c86c8cc80d9919bd90126600c00000000000000000000000000000000000;
   0x6484cc849fc004444f0044840c48484404848484081099090810124200c00000000000000000000000000000000000;
   0x480484ffb0c0c84d9e006c86086c24cc04fefe04301fc91b0860124300800000000000000000000000000000000000;
   0x2c84c404b0404446d82028840c28484404040484c00099090d80124270c00000000000000000000000000000000000;
   0x2884c484b0400444482038840c48484404848484881099090910124200c00000000000000000000000000000000000;
   0x180484c9b4c0c84cde4038960d4c84cc0c94c80498190918d930324b00800000000000000000000000000000000000;
   0x1084c4789fc0445bcb00107c0f87884418787884780f31086cf0623e00c00000000000000000000000000000000000;
   0x1000000000000000000010000000000000000000000000000800000000000000000000000000000000000000000000;
   0x80000000000000000000c000000000000000000000000000800000000000000000000000000000000000000000000;
   0xc00000000000000000006000000000000000000000000000800000000000000000000000000000000000000000000;
   0x0;
   0x0;
   0x0].
(** codegen/src_data/emoji_13_0.png: 512 columns, 6756 rows *)
Definition emoji_width : N := 512.
Definition emoji_rows : list N :=
  concat [emoji_rows_0; emoji_rows_1; emoji_rows_2; emoji_rows_3; emoji_rows_4; emoji_rows_5;
    emoji_rows_6; emoji_rows_7; emoji_rows_8; emoji_rows_9; emoji_rows_10; emoji_rows_11;
    emoji_rows_12; emoji_rows_13; emoji_rows_14; emoji_rows_15; emoji_rows_16; emoji_rows_17;
    emoji_rows_18; emoji_rows_19; emoji_rows_20; emoji_rows_21; emoji_rows_22; emoji_rows_23;
    emoji_rows_24; emoji_rows_25; emoji_rows_26; emoji_rows_27; emoji_rows_28; emoji_rows_29;
    emoji_rows_30; emoji_rows_31; emoji_rows_32; emoji_rows_33; emoji_rows_34; emoji_rows_35;
    emoji_rows_36; emoji_rows_37; emoji_rows_38; emoji_rows_39; emoji_rows_40; emoji_rows_41;
    emoji_rows_42; emoji_rows_43; emoji_rows_44; emoji_rows_45; emoji_rows_46; emoji_rows_47;
    emoji_rows_48; emoji_rows_49; emoji_rows_50; emoji_rows_51; emoji_rows_52; emoji_rows_53;
    emoji_rows_54; emoji_rows_55; emoji_rows_56; emoji_rows_57; emoji_rows_58; emoji_rows_59;
    emoji_rows_60; emoji_rows_61; emoji_rows_62; emoji_rows_63; emoji_rows_64; emoji_rows_65;
    emoji_rows_66; emoji_rows_67; emoji_rows_68; emoji_rows_69; emoji_rows_70; emoji_rows_71;
    emoji_rows_72; emoji_rows_73; emoji_rows_74; emoji_rows_75; emoji_rows_76; emoji_rows_77;
    emoji_rows_78; emoji_rows_79; emoji_rows_80; emoji_rows_81; emoji_rows_82; emoji_rows_83;
    emoji_rows_84; emoji_rows_85; emoji_rows_86; emoji_rows_87; emoji_rows_88; emoji_rows_89;
    emoji_rows_90; emoji_rows_91; emoji_rows_92; emoji_rows_93; emoji_rows_94; emoji_rows_95;
    emoji_rows_96; emoji_rows_97; emoji_rows_98; emoji_rows_99; emoji_rows_100; emoji_rows_101;
    emoji_rows_102; emoji_rows_103; emoji_rows_104; emoji_rows_105].
