(** * The file wasm_demo/demo.wasm, written by tools/gen_wasm.py

    1629480 bytes: those up to the contents of the first data segment, the contents of that segment, 10
    bytes between the segments, the contents of the second segment. *)
From Verif Require Import Prim Str Geom FontDefs Demo SpecCompiled.
From Verif Require Import FontSmall FontRegular FontBold FontEmoji FontHanzi.

(** Bytes 0-18080 of the file *)
Definition demo_head : list N := [
  0; 97; 115; 109; 1; 0; 0; 0; 1; 48; 8; 96; 0; 0; 96; 1; 127; 0; 96; 5; 127; 127; 127; 127; 127; 0; 96; 0;
  1; 127; 96; 4; 127; 127; 127; 127; 0; 96; 2; 127; 127; 0; 96; 6; 127; 127; 127; 127; 127; 127; 0; 96; 3;
  127; 127; 127; 1; 127; 3; 36; 35; 0; 1; 2; 3; 4; 4; 5; 4; 4; 4; 4; 4; 4; 4; 4; 4; 4; 4; 4; 4; 4; 4; 4; 4;
  4; 4; 4; 6; 4; 4; 4; 4; 7; 0; 0; 4; 5; 1; 112; 1; 1; 1; 5; 3; 1; 0; 41; 6; 25; 3; 127; 1; 65; 128; 128;
  192; 0; 11; 127; 0; 65; 128; 173; 162; 1; 11; 127; 0; 65; 128; 173; 162; 1; 11; 7; 60; 5; 6; 109; 101;
  109; 111; 114; 121; 2; 0; 4; 105; 110; 105; 116; 0; 0; 13; 102; 114; 97; 109; 101; 95; 98; 117; 102; 95;
  112; 116; 114; 0; 3; 10; 95; 95; 100; 97; 116; 97; 95; 101; 110; 100; 3; 1; 11; 95; 95; 104; 101; 97; 112;
  95; 98; 97; 115; 101; 3; 2; 10; 201; 139; 1; 35; 174; 5; 1; 3; 127; 35; 128; 128; 128; 128; 0; 65; 48;
  107; 34; 0; 36; 128; 128; 128; 128; 0; 32; 0; 66; 208; 130; 128; 128; 128; 195; 0; 55; 3; 40; 32; 0; 66;
  0; 55; 3; 32; 32; 0; 65; 32; 106; 16; 129; 128; 128; 128; 0; 32; 0; 65; 0; 54; 2; 8; 32; 0; 66; 134; 128;
  128; 128; 224; 0; 55; 3; 0; 32; 0; 66; 202; 130; 128; 128; 160; 194; 0; 55; 3; 40; 32; 0; 66; 134; 128;
  128; 128; 224; 0; 55; 3; 32; 32; 0; 65; 32; 106; 32; 0; 65; 2; 65; 240; 241; 160; 129; 0; 65; 40; 16; 130;
  128; 128; 128; 0; 32; 0; 66; 202; 130; 128; 128; 160; 194; 0; 55; 3; 40; 32; 0; 66; 134; 128; 128; 128;
  224; 0; 55; 3; 32; 32; 0; 65; 32; 106; 32; 0; 65; 1; 65; 240; 241; 160; 129; 0; 65; 40; 16; 130; 128; 128;
  128; 0; 32; 0; 66; 202; 130; 128; 128; 160; 194; 0; 55; 3; 40; 32; 0; 66; 134; 128; 128; 128; 224; 0; 55;
  3; 32; 32; 0; 65; 32; 106; 32; 0; 65; 0; 65; 240; 241; 160; 129; 0; 65; 40; 16; 130; 128; 128; 128; 0; 32;
  0; 66; 202; 130; 128; 128; 160; 194; 0; 55; 3; 40; 32; 0; 66; 134; 128; 128; 128; 224; 0; 55; 3; 32; 32;
  0; 65; 32; 106; 32; 0; 65; 1; 65; 152; 242; 160; 129; 0; 65; 43; 16; 130; 128; 128; 128; 0; 32; 0; 66;
  202; 130; 128; 128; 160; 194; 0; 55; 3; 40; 32; 0; 66; 134; 128; 128; 128; 224; 0; 55; 3; 32; 32; 0; 65;
  32; 106; 32; 0; 65; 1; 65; 195; 242; 160; 129; 0; 65; 32; 16; 130; 128; 128; 128; 0; 32; 0; 66; 202; 130;
  128; 128; 160; 194; 0; 55; 3; 40; 32; 0; 66; 134; 128; 128; 128; 224; 0; 55; 3; 32; 32; 0; 65; 32; 106;
  32; 0; 65; 1; 65; 227; 242; 160; 129; 0; 65; 33; 16; 130; 128; 128; 128; 0; 32; 0; 66; 202; 130; 128; 128;
  160; 194; 0; 55; 3; 40; 32; 0; 66; 134; 128; 128; 128; 224; 0; 55; 3; 32; 32; 0; 65; 32; 106; 32; 0; 65;
  1; 65; 132; 243; 160; 129; 0; 65; 30; 16; 130; 128; 128; 128; 0; 32; 0; 66; 202; 130; 128; 128; 160; 194;
  0; 55; 3; 40; 32; 0; 66; 134; 128; 128; 128; 224; 0; 55; 3; 32; 32; 0; 65; 32; 106; 32; 0; 65; 1; 65; 162;
  243; 160; 129; 0; 65; 242; 0; 16; 130; 128; 128; 128; 0; 32; 0; 32; 0; 40; 2; 8; 54; 2; 24; 32; 0; 32; 0;
  40; 2; 4; 34; 1; 54; 2; 20; 32; 0; 32; 0; 40; 2; 0; 54; 2; 16; 32; 0; 65; 32; 106; 65; 12; 106; 32; 1; 65;
  12; 106; 34; 1; 65; 138; 4; 32; 1; 65; 138; 4; 75; 34; 2; 27; 54; 2; 0; 32; 0; 65; 162; 2; 54; 2; 40; 32;
  0; 65; 138; 4; 32; 1; 32; 2; 27; 54; 2; 36; 32; 0; 65; 36; 54; 2; 32; 32; 0; 65; 32; 106; 32; 0; 65; 16;
  106; 65; 0; 65; 162; 243; 160; 129; 0; 65; 242; 0; 16; 130; 128; 128; 128; 0; 32; 0; 66; 208; 130; 128;
  128; 128; 195; 0; 55; 3; 40; 32; 0; 66; 0; 55; 3; 32; 32; 0; 65; 32; 106; 16; 129; 128; 128; 128; 0; 32;
  0; 65; 0; 54; 2; 24; 32; 0; 66; 134; 128; 128; 128; 224; 0; 55; 3; 16; 32; 0; 66; 202; 130; 128; 128; 160;
  194; 0; 55; 3; 40; 32; 0; 66; 134; 128; 128; 128; 224; 0; 55; 3; 32; 32; 0; 65; 32; 106; 32; 0; 65; 16;
  106; 65; 1; 65; 148; 244; 160; 129; 0; 65; 201; 0; 16; 130; 128; 128; 128; 0; 32; 0; 65; 48; 106; 36; 128;
  128; 128; 128; 0; 11; 247; 2; 1; 13; 127; 2; 64; 2; 64; 32; 0; 65; 12; 106; 40; 2; 0; 34; 1; 65; 152; 4;
  75; 13; 0; 32; 0; 40; 2; 4; 34; 2; 32; 1; 79; 13; 0; 32; 0; 40; 2; 8; 34; 3; 65; 208; 2; 75; 13; 0; 32; 0;
  40; 2; 0; 34; 0; 32; 3; 79; 13; 0; 32; 0; 65; 5; 118; 34; 4; 32; 2; 65; 11; 108; 106; 65; 1; 106; 33; 5;
  32; 4; 65; 127; 115; 32; 3; 65; 5; 118; 34; 6; 106; 33; 7; 32; 2; 65; 44; 108; 32; 4; 65; 2; 116; 106; 65;
  228; 244; 160; 129; 0; 106; 33; 8; 65; 127; 32; 0; 65; 31; 113; 116; 33; 9; 65; 127; 65; 0; 32; 3; 107;
  65; 31; 113; 118; 33; 10; 32; 4; 65; 1; 106; 32; 6; 79; 33; 11; 3; 64; 2; 64; 2; 64; 2; 64; 32; 2; 65; 11;
  108; 34; 12; 32; 4; 106; 34; 0; 65; 135; 46; 75; 13; 0; 32; 0; 65; 2; 116; 65; 224; 244; 160; 129; 0; 106;
  34; 0; 32; 0; 40; 2; 0; 32; 9; 114; 54; 2; 0; 32; 8; 33; 0; 32; 5; 33; 3; 32; 7; 33; 13; 32; 11; 13; 2; 3;
  64; 32; 3; 65; 135; 46; 75; 13; 2; 32; 0; 65; 127; 54; 2; 0; 32; 0; 65; 4; 106; 33; 0; 32; 3; 65; 1; 106;
  33; 3; 32; 13; 65; 127; 106; 34; 13; 69; 13; 3; 12; 0; 11; 11; 32; 0; 65; 136; 46; 16; 134; 128; 128; 128;
  0; 0; 11; 32; 3; 65; 136; 46; 16; 134; 128; 128; 128; 0; 0; 11; 2; 64; 32; 4; 32; 6; 79; 13; 0; 32; 12;
  32; 6; 106; 34; 0; 65; 135; 46; 75; 13; 3; 32; 0; 65; 2; 116; 65; 224; 244; 160; 129; 0; 106; 34; 0; 32;
  0; 40; 2; 0; 32; 10; 114; 54; 2; 0; 11; 32; 8; 65; 44; 106; 33; 8; 32; 5; 65; 11; 106; 33; 5; 32; 2; 65;
  1; 106; 34; 2; 32; 1; 71; 13; 0; 11; 11; 15; 11; 32; 0; 65; 136; 46; 16; 134; 128; 128; 128; 0; 0; 11;
  230; 10; 1; 9; 127; 35; 128; 128; 128; 128; 0; 65; 48; 107; 34; 5; 36; 128; 128; 128; 128; 0; 65; 3; 33;
  6; 2; 64; 2; 64; 2; 64; 32; 2; 65; 255; 1; 113; 14; 3; 2; 1; 0; 2; 11; 65; 1; 33; 6; 12; 1; 11; 65; 2; 33;
  6; 11; 2; 64; 2; 64; 2; 64; 2; 64; 2; 64; 2; 64; 32; 4; 69; 13; 0; 32; 4; 33; 2; 3; 64; 32; 2; 69; 13; 1;
  32; 3; 65; 1; 106; 33; 7; 32; 3; 32; 2; 106; 33; 8; 2; 64; 2; 64; 2; 64; 2; 64; 2; 64; 2; 64; 2; 64; 2;
  64; 2; 64; 2; 64; 2; 64; 32; 3; 44; 0; 0; 34; 9; 65; 127; 76; 13; 0; 32; 9; 65; 255; 1; 113; 33; 9; 12; 1;
  11; 65; 0; 33; 10; 32; 8; 33; 11; 2; 64; 32; 2; 65; 1; 70; 13; 0; 32; 3; 65; 2; 106; 33; 11; 32; 3; 45; 0;
  1; 65; 63; 113; 33; 10; 11; 32; 9; 65; 31; 113; 33; 12; 2; 64; 32; 9; 65; 255; 1; 113; 34; 9; 65; 223; 1;
  75; 13; 0; 32; 10; 32; 12; 65; 6; 116; 114; 33; 9; 12; 1; 11; 2; 64; 2; 64; 32; 11; 32; 8; 71; 13; 0; 65;
  0; 33; 11; 32; 8; 33; 13; 12; 1; 11; 32; 11; 65; 1; 106; 33; 13; 32; 11; 45; 0; 0; 65; 63; 113; 33; 11;
  11; 32; 11; 32; 10; 65; 6; 116; 114; 33; 11; 2; 64; 32; 9; 65; 240; 1; 79; 13; 0; 32; 11; 32; 12; 65; 12;
  116; 114; 33; 9; 12; 1; 11; 2; 64; 2; 64; 32; 13; 32; 8; 71; 13; 0; 65; 0; 33; 9; 12; 1; 11; 32; 13; 45;
  0; 0; 65; 63; 113; 33; 9; 11; 32; 11; 65; 6; 116; 32; 12; 65; 18; 116; 65; 128; 128; 240; 0; 113; 114; 32;
  9; 114; 34; 9; 65; 128; 128; 196; 0; 70; 13; 1; 11; 32; 9; 65; 10; 70; 13; 1; 11; 32; 5; 65; 32; 106; 65;
  8; 106; 34; 9; 32; 0; 65; 8; 106; 34; 11; 41; 2; 0; 55; 3; 0; 32; 5; 32; 0; 41; 2; 0; 55; 3; 32; 32; 5;
  65; 24; 106; 32; 5; 65; 32; 106; 32; 1; 32; 3; 32; 2; 65; 0; 16; 155; 128; 128; 128; 0; 32; 5; 40; 2; 24;
  69; 13; 1; 32; 9; 32; 11; 41; 2; 0; 55; 3; 0; 32; 5; 32; 0; 41; 2; 0; 55; 3; 32; 32; 5; 65; 16; 106; 32;
  5; 65; 32; 106; 32; 1; 32; 3; 32; 2; 32; 6; 16; 155; 128; 128; 128; 0; 32; 5; 40; 2; 16; 69; 13; 2; 32; 9;
  32; 11; 41; 2; 0; 55; 3; 0; 32; 5; 32; 0; 41; 2; 0; 55; 3; 32; 32; 5; 65; 8; 106; 32; 5; 65; 32; 106; 32;
  1; 32; 3; 32; 2; 65; 4; 16; 155; 128; 128; 128; 0; 32; 5; 40; 2; 8; 69; 13; 3; 32; 9; 32; 11; 41; 2; 0;
  55; 3; 0; 32; 5; 32; 0; 41; 2; 0; 55; 3; 32; 32; 5; 32; 5; 65; 32; 106; 32; 1; 65; 128; 232; 193; 128; 0;
  65; 3; 32; 6; 16; 155; 128; 128; 128; 0; 32; 5; 40; 2; 0; 13; 7; 32; 3; 44; 0; 0; 34; 9; 65; 127; 74; 13;
  6; 32; 9; 65; 255; 1; 113; 33; 9; 32; 2; 65; 1; 71; 13; 4; 65; 0; 33; 10; 32; 8; 33; 11; 12; 5; 11; 32; 1;
  32; 0; 40; 2; 0; 54; 2; 0; 2; 64; 32; 1; 40; 2; 8; 34; 9; 65; 23; 75; 13; 0; 65; 24; 33; 9; 32; 1; 65; 24;
  54; 2; 8; 11; 32; 1; 65; 0; 54; 2; 8; 32; 1; 32; 9; 32; 1; 40; 2; 4; 106; 65; 1; 106; 54; 2; 4; 2; 64; 32;
  2; 65; 1; 70; 13; 0; 32; 7; 44; 0; 0; 65; 191; 127; 76; 13; 10; 11; 32; 2; 65; 127; 106; 33; 2; 32; 7; 33;
  3; 12; 6; 11; 2; 64; 32; 5; 40; 2; 28; 34; 9; 69; 13; 0; 32; 2; 32; 9; 70; 13; 0; 32; 2; 32; 9; 77; 13;
  10; 32; 3; 32; 9; 106; 44; 0; 0; 65; 191; 127; 76; 13; 10; 11; 32; 3; 32; 9; 106; 33; 3; 32; 2; 32; 9;
  107; 33; 2; 12; 5; 11; 2; 64; 32; 5; 40; 2; 20; 34; 9; 69; 13; 0; 32; 2; 32; 9; 70; 13; 0; 32; 2; 32; 9;
  77; 13; 10; 32; 3; 32; 9; 106; 44; 0; 0; 65; 191; 127; 76; 13; 10; 11; 32; 3; 32; 9; 106; 33; 3; 32; 2;
  32; 9; 107; 33; 2; 12; 4; 11; 2; 64; 32; 5; 40; 2; 12; 34; 9; 69; 13; 0; 32; 2; 32; 9; 70; 13; 0; 32; 2;
  32; 9; 77; 13; 10; 32; 3; 32; 9; 106; 44; 0; 0; 65; 191; 127; 76; 13; 10; 11; 32; 3; 32; 9; 106; 33; 3;
  32; 2; 32; 9; 107; 33; 2; 12; 3; 11; 32; 3; 45; 0; 1; 65; 63; 113; 33; 10; 32; 3; 65; 2; 106; 34; 7; 33;
  11; 11; 32; 9; 65; 224; 1; 73; 13; 0; 2; 64; 2; 64; 32; 11; 32; 8; 71; 13; 0; 65; 0; 33; 12; 32; 8; 33;
  11; 12; 1; 11; 32; 11; 45; 0; 0; 65; 63; 113; 33; 12; 32; 11; 65; 1; 106; 34; 7; 33; 11; 11; 32; 9; 65;
  240; 1; 73; 13; 0; 2; 64; 2; 64; 32; 11; 32; 8; 71; 13; 0; 65; 0; 33; 11; 12; 1; 11; 32; 11; 65; 1; 106;
  33; 7; 32; 11; 45; 0; 0; 65; 63; 113; 33; 11; 11; 32; 10; 65; 12; 116; 32; 9; 65; 18; 116; 65; 128; 128;
  240; 0; 113; 114; 32; 12; 65; 6; 116; 114; 32; 11; 114; 65; 128; 128; 196; 0; 70; 13; 1; 11; 32; 8; 32; 7;
  70; 13; 0; 2; 64; 32; 7; 44; 0; 0; 34; 9; 65; 127; 74; 13; 0; 32; 9; 65; 255; 1; 113; 33; 9; 2; 64; 2; 64;
  32; 7; 65; 1; 106; 32; 8; 71; 13; 0; 65; 0; 33; 10; 32; 8; 33; 11; 12; 1; 11; 32; 7; 65; 2; 106; 33; 11;
  32; 7; 45; 0; 1; 65; 63; 113; 33; 10; 11; 32; 9; 65; 224; 1; 73; 13; 0; 2; 64; 2; 64; 32; 11; 32; 8; 71;
  13; 0; 65; 0; 33; 11; 32; 8; 33; 12; 12; 1; 11; 32; 11; 65; 1; 106; 33; 12; 32; 11; 45; 0; 0; 65; 63; 113;
  33; 11; 11; 32; 9; 65; 240; 1; 73; 13; 0; 2; 64; 2; 64; 32; 12; 32; 8; 71; 13; 0; 65; 0; 33; 8; 12; 1; 11;
  32; 12; 45; 0; 0; 65; 63; 113; 33; 8; 11; 32; 10; 65; 12; 116; 32; 9; 65; 18; 116; 65; 128; 128; 240; 0;
  113; 114; 32; 11; 65; 6; 116; 114; 32; 8; 114; 65; 128; 128; 196; 0; 70; 13; 1; 11; 2; 64; 32; 7; 32; 3;
  107; 34; 9; 69; 13; 0; 32; 2; 32; 9; 70; 13; 0; 32; 2; 32; 9; 77; 13; 8; 32; 3; 32; 9; 106; 44; 0; 0; 65;
  191; 127; 76; 13; 8; 11; 32; 3; 32; 9; 106; 33; 3; 32; 2; 32; 9; 107; 33; 2; 11; 32; 4; 65; 127; 106; 34;
  4; 13; 0; 11; 11; 32; 5; 65; 48; 106; 36; 128; 128; 128; 128; 0; 15; 11; 32; 3; 32; 2; 65; 1; 32; 2; 16;
  156; 128; 128; 128; 0; 0; 11; 32; 3; 32; 2; 32; 9; 32; 2; 16; 156; 128; 128; 128; 0; 0; 11; 32; 3; 32; 2;
  32; 9; 32; 2; 16; 156; 128; 128; 128; 0; 0; 11; 32; 3; 32; 2; 32; 9; 32; 2; 16; 156; 128; 128; 128; 0; 0;
  11; 32; 3; 32; 2; 32; 9; 32; 2; 16; 156; 128; 128; 128; 0; 0; 11; 8; 0; 65; 224; 244; 160; 129; 0; 11;
  215; 1; 1; 4; 127; 35; 128; 128; 128; 128; 0; 65; 16; 107; 34; 4; 36; 128; 128; 128; 128; 0; 32; 4; 65; 8;
  106; 32; 1; 32; 2; 32; 3; 16; 133; 128; 128; 128; 0; 65; 0; 33; 1; 65; 24; 33; 2; 32; 4; 40; 2; 12; 33; 5;
  32; 4; 40; 2; 8; 33; 6; 3; 64; 32; 1; 32; 2; 65; 1; 118; 34; 3; 32; 1; 106; 34; 7; 32; 7; 65; 2; 116; 65;
  192; 230; 193; 128; 0; 106; 40; 2; 0; 32; 6; 75; 27; 33; 1; 32; 2; 32; 3; 107; 34; 2; 65; 1; 75; 13; 0;
  11; 2; 64; 2; 64; 2; 64; 32; 1; 65; 2; 116; 65; 192; 230; 193; 128; 0; 106; 40; 2; 0; 32; 6; 70; 13; 0;
  32; 0; 65; 0; 54; 2; 0; 12; 1; 11; 32; 1; 65; 23; 75; 13; 1; 32; 0; 65; 1; 54; 2; 0; 32; 0; 65; 8; 106;
  32; 5; 54; 2; 0; 32; 0; 32; 1; 65; 2; 116; 65; 160; 231; 193; 128; 0; 106; 40; 2; 0; 54; 2; 4; 11; 32; 4;
  65; 16; 106; 36; 128; 128; 128; 128; 0; 15; 11; 32; 1; 65; 24; 16; 134; 128; 128; 128; 0; 0; 11; 189; 3;
  1; 10; 127; 2; 64; 2; 64; 32; 2; 13; 0; 65; 0; 33; 4; 12; 1; 11; 32; 1; 32; 2; 106; 33; 5; 32; 3; 65; 1;
  106; 33; 6; 65; 0; 33; 4; 65; 0; 33; 7; 32; 1; 33; 8; 3; 64; 32; 1; 65; 1; 106; 33; 3; 2; 64; 2; 64; 2;
  64; 32; 1; 44; 0; 0; 34; 9; 65; 127; 74; 13; 0; 2; 64; 2; 64; 32; 3; 32; 5; 71; 13; 0; 65; 0; 33; 10; 32;
  5; 33; 1; 12; 1; 11; 32; 1; 45; 0; 1; 65; 63; 113; 33; 10; 32; 1; 65; 2; 106; 34; 3; 33; 1; 11; 32; 9; 65;
  31; 113; 33; 11; 2; 64; 32; 9; 65; 255; 1; 113; 34; 9; 65; 223; 1; 75; 13; 0; 32; 10; 32; 11; 65; 6; 116;
  114; 33; 9; 12; 2; 11; 2; 64; 2; 64; 32; 1; 32; 5; 71; 13; 0; 65; 0; 33; 12; 32; 5; 33; 13; 12; 1; 11; 32;
  1; 45; 0; 0; 65; 63; 113; 33; 12; 32; 1; 65; 1; 106; 34; 3; 33; 13; 11; 32; 12; 32; 10; 65; 6; 116; 114;
  33; 10; 2; 64; 32; 9; 65; 240; 1; 79; 13; 0; 32; 10; 32; 11; 65; 12; 116; 114; 33; 9; 12; 2; 11; 2; 64; 2;
  64; 32; 13; 32; 5; 71; 13; 0; 65; 0; 33; 9; 32; 3; 33; 1; 12; 1; 11; 32; 13; 65; 1; 106; 33; 1; 32; 13;
  45; 0; 0; 65; 63; 113; 33; 9; 11; 32; 10; 65; 6; 116; 32; 11; 65; 18; 116; 65; 128; 128; 240; 0; 113; 114;
  32; 9; 114; 34; 9; 65; 128; 128; 196; 0; 71; 13; 2; 12; 4; 11; 32; 9; 65; 255; 1; 113; 33; 9; 11; 32; 3;
  33; 1; 11; 2; 64; 32; 6; 65; 127; 106; 34; 6; 13; 0; 32; 7; 33; 2; 12; 2; 11; 32; 7; 32; 8; 107; 32; 1;
  106; 33; 7; 32; 9; 65; 209; 218; 248; 228; 124; 108; 65; 15; 119; 65; 147; 235; 156; 220; 1; 108; 32; 4;
  115; 65; 13; 119; 65; 5; 108; 65; 228; 214; 209; 178; 126; 106; 33; 4; 32; 1; 33; 8; 32; 5; 32; 1; 71; 13;
  0; 11; 11; 32; 0; 32; 2; 54; 2; 4; 32; 0; 32; 2; 32; 4; 115; 34; 1; 65; 16; 118; 32; 1; 115; 65; 235; 148;
  175; 175; 120; 108; 34; 1; 65; 13; 118; 32; 1; 115; 65; 181; 220; 202; 149; 124; 108; 34; 1; 65; 16; 118;
  32; 1; 115; 54; 2; 0; 11; 9; 0; 16; 162; 128; 128; 128; 0; 0; 11; 215; 1; 1; 4; 127; 35; 128; 128; 128;
  128; 0; 65; 16; 107; 34; 4; 36; 128; 128; 128; 128; 0; 32; 4; 65; 8; 106; 32; 1; 32; 2; 32; 3; 16; 133;
  128; 128; 128; 0; 65; 0; 33; 1; 65; 4; 33; 2; 32; 4; 40; 2; 12; 33; 5; 32; 4; 40; 2; 8; 33; 6; 3; 64; 32;
  1; 32; 2; 65; 1; 118; 34; 3; 32; 1; 106; 34; 7; 32; 7; 65; 2; 116; 65; 160; 230; 193; 128; 0; 106; 40; 2;
  0; 32; 6; 75; 27; 33; 1; 32; 2; 32; 3; 107; 34; 2; 65; 1; 75; 13; 0; 11; 2; 64; 2; 64; 2; 64; 32; 1; 65;
  2; 116; 65; 160; 230; 193; 128; 0; 106; 40; 2; 0; 32; 6; 70; 13; 0; 32; 0; 65; 0; 54; 2; 0; 12; 1; 11; 32;
  1; 65; 3; 75; 13; 1; 32; 0; 65; 1; 54; 2; 0; 32; 0; 65; 8; 106; 32; 5; 54; 2; 0; 32; 0; 32; 1; 65; 2; 116;
  65; 176; 230; 193; 128; 0; 106; 40; 2; 0; 54; 2; 4; 11; 32; 4; 65; 16; 106; 36; 128; 128; 128; 128; 0; 15;
  11; 32; 1; 65; 4; 16; 134; 128; 128; 128; 0; 0; 11; 215; 1; 1; 4; 127; 35; 128; 128; 128; 128; 0; 65; 16;
  107; 34; 4; 36; 128; 128; 128; 128; 0; 32; 4; 65; 8; 106; 32; 1; 32; 2; 32; 3; 16; 133; 128; 128; 128; 0;
  65; 0; 33; 1; 65; 4; 33; 2; 32; 4; 40; 2; 12; 33; 5; 32; 4; 40; 2; 8; 33; 6; 3; 64; 32; 1; 32; 2; 65; 1;
  118; 34; 3; 32; 1; 106; 34; 7; 32; 7; 65; 2; 116; 65; 128; 230; 193; 128; 0; 106; 40; 2; 0; 32; 6; 75; 27;
  33; 1; 32; 2; 32; 3; 107; 34; 2; 65; 1; 75; 13; 0; 11; 2; 64; 2; 64; 2; 64; 32; 1; 65; 2; 116; 65; 128;
  230; 193; 128; 0; 106; 40; 2; 0; 32; 6; 70; 13; 0; 32; 0; 65; 0; 54; 2; 0; 12; 1; 11; 32; 1; 65; 3; 75;
  13; 1; 32; 0; 65; 1; 54; 2; 0; 32; 0; 65; 8; 106; 32; 5; 54; 2; 0; 32; 0; 32; 1; 65; 2; 116; 65; 144; 230;
  193; 128; 0; 106; 40; 2; 0; 54; 2; 4; 11; 32; 4; 65; 16; 106; 36; 128; 128; 128; 128; 0; 15; 11; 32; 1;
  65; 4; 16; 134; 128; 128; 128; 0; 0; 11; 215; 1; 1; 4; 127; 35; 128; 128; 128; 128; 0; 65; 16; 107; 34; 4;
  36; 128; 128; 128; 128; 0; 32; 4; 65; 8; 106; 32; 1; 32; 2; 32; 3; 16; 133; 128; 128; 128; 0; 65; 0; 33;
  1; 65; 4; 33; 2; 32; 4; 40; 2; 12; 33; 5; 32; 4; 40; 2; 8; 33; 6; 3; 64; 32; 1; 32; 2; 65; 1; 118; 34; 3;
  32; 1; 106; 34; 7; 32; 7; 65; 2; 116; 65; 224; 229; 193; 128; 0; 106; 40; 2; 0; 32; 6; 75; 27; 33; 1; 32;
  2; 32; 3; 107; 34; 2; 65; 1; 75; 13; 0; 11; 2; 64; 2; 64; 2; 64; 32; 1; 65; 2; 116; 65; 224; 229; 193;
  128; 0; 106; 40; 2; 0; 32; 6; 70; 13; 0; 32; 0; 65; 0; 54; 2; 0; 12; 1; 11; 32; 1; 65; 3; 75; 13; 1; 32;
  0; 65; 1; 54; 2; 0; 32; 0; 65; 8; 106; 32; 5; 54; 2; 0; 32; 0; 32; 1; 65; 2; 116; 65; 240; 229; 193; 128;
  0; 106; 40; 2; 0; 54; 2; 4; 11; 32; 4; 65; 16; 106; 36; 128; 128; 128; 128; 0; 15; 11; 32; 1; 65; 4; 16;
  134; 128; 128; 128; 0; 0; 11; 215; 1; 1; 4; 127; 35; 128; 128; 128; 128; 0; 65; 16; 107; 34; 4; 36; 128;
  128; 128; 128; 0; 32; 4; 65; 8; 106; 32; 1; 32; 2; 32; 3; 16; 133; 128; 128; 128; 0; 65; 0; 33; 1; 65; 16;
  33; 2; 32; 4; 40; 2; 12; 33; 5; 32; 4; 40; 2; 8; 33; 6; 3; 64; 32; 1; 32; 2; 65; 1; 118; 34; 3; 32; 1;
  106; 34; 7; 32; 7; 65; 2; 116; 65; 224; 228; 193; 128; 0; 106; 40; 2; 0; 32; 6; 75; 27; 33; 1; 32; 2; 32;
  3; 107; 34; 2; 65; 1; 75; 13; 0; 11; 2; 64; 2; 64; 2; 64; 32; 1; 65; 2; 116; 65; 224; 228; 193; 128; 0;
  106; 40; 2; 0; 32; 6; 70; 13; 0; 32; 0; 65; 0; 54; 2; 0; 12; 1; 11; 32; 1; 65; 15; 75; 13; 1; 32; 0; 65;
  1; 54; 2; 0; 32; 0; 65; 8; 106; 32; 5; 54; 2; 0; 32; 0; 32; 1; 65; 2; 116; 65; 160; 229; 193; 128; 0; 106;
  40; 2; 0; 54; 2; 4; 11; 32; 4; 65; 16; 106; 36; 128; 128; 128; 128; 0; 15; 11; 32; 1; 65; 16; 16; 134;
  128; 128; 128; 0; 0; 11; 215; 1; 1; 4; 127; 35; 128; 128; 128; 128; 0; 65; 16; 107; 34; 4; 36; 128; 128;
  128; 128; 0; 32; 4; 65; 8; 106; 32; 1; 32; 2; 32; 3; 16; 133; 128; 128; 128; 0; 65; 0; 33; 1; 65; 33; 33;
  2; 32; 4; 40; 2; 12; 33; 5; 32; 4; 40; 2; 8; 33; 6; 3; 64; 32; 1; 32; 2; 65; 1; 118; 34; 3; 32; 1; 106;
  34; 7; 32; 7; 65; 2; 116; 65; 216; 226; 193; 128; 0; 106; 40; 2; 0; 32; 6; 75; 27; 33; 1; 32; 2; 32; 3;
  107; 34; 2; 65; 1; 75; 13; 0; 11; 2; 64; 2; 64; 2; 64; 32; 1; 65; 2; 116; 65; 216; 226; 193; 128; 0; 106;
  40; 2; 0; 32; 6; 70; 13; 0; 32; 0; 65; 0; 54; 2; 0; 12; 1; 11; 32; 1; 65; 32; 75; 13; 1; 32; 0; 65; 1; 54;
  2; 0; 32; 0; 65; 8; 106; 32; 5; 54; 2; 0; 32; 0; 32; 1; 65; 2; 116; 65; 220; 227; 193; 128; 0; 106; 40; 2;
  0; 54; 2; 4; 11; 32; 4; 65; 16; 106; 36; 128; 128; 128; 128; 0; 15; 11; 32; 1; 65; 33; 16; 134; 128; 128;
  128; 0; 0; 11; 139; 1; 1; 1; 127; 35; 128; 128; 128; 128; 0; 65; 16; 107; 34; 4; 36; 128; 128; 128; 128;
  0; 32; 4; 65; 8; 106; 32; 1; 32; 2; 32; 3; 16; 133; 128; 128; 128; 0; 2; 64; 2; 64; 32; 4; 40; 2; 8; 34;
  1; 65; 234; 143; 184; 152; 125; 75; 65; 2; 116; 34; 2; 65; 200; 226; 193; 128; 0; 106; 40; 2; 0; 32; 1;
  70; 13; 0; 32; 0; 65; 0; 54; 2; 0; 12; 1; 11; 32; 4; 40; 2; 12; 33; 1; 32; 0; 65; 1; 54; 2; 0; 32; 0; 65;
  8; 106; 32; 1; 54; 2; 0; 32; 0; 32; 2; 65; 208; 226; 193; 128; 0; 106; 40; 2; 0; 54; 2; 4; 11; 32; 4; 65;
  16; 106; 36; 128; 128; 128; 128; 0; 11; 215; 1; 1; 4; 127; 35; 128; 128; 128; 128; 0; 65; 16; 107; 34; 4;
  36; 128; 128; 128; 128; 0; 32; 4; 65; 8; 106; 32; 1; 32; 2; 32; 3; 16; 133; 128; 128; 128; 0; 65; 0; 33;
  1; 65; 16; 33; 2; 32; 4; 40; 2; 12; 33; 5; 32; 4; 40; 2; 8; 33; 6; 3; 64; 32; 1; 32; 2; 65; 1; 118; 34; 3;
  32; 1; 106; 34; 7; 32; 7; 65; 2; 116; 65; 200; 225; 193; 128; 0; 106; 40; 2; 0; 32; 6; 75; 27; 33; 1; 32;
  2; 32; 3; 107; 34; 2; 65; 1; 75; 13; 0; 11; 2; 64; 2; 64; 2; 64; 32; 1; 65; 2; 116; 65; 200; 225; 193;
  128; 0; 106; 40; 2; 0; 32; 6; 70; 13; 0; 32; 0; 65; 0; 54; 2; 0; 12; 1; 11; 32; 1; 65; 15; 75; 13; 1; 32;
  0; 65; 1; 54; 2; 0; 32; 0; 65; 8; 106; 32; 5; 54; 2; 0; 32; 0; 32; 1; 65; 2; 116; 65; 136; 226; 193; 128;
  0; 106; 40; 2; 0; 54; 2; 4; 11; 32; 4; 65; 16; 106; 36; 128; 128; 128; 128; 0; 15; 11; 32; 1; 65; 16; 16;
  134; 128; 128; 128; 0; 0; 11; 218; 1; 1; 4; 127; 35; 128; 128; 128; 128; 0; 65; 16; 107; 34; 4; 36; 128;
  128; 128; 128; 0; 32; 4; 65; 8; 106; 32; 1; 32; 2; 32; 3; 16; 133; 128; 128; 128; 0; 65; 0; 33; 1; 65;
  192; 1; 33; 2; 32; 4; 40; 2; 12; 33; 5; 32; 4; 40; 2; 8; 33; 6; 3; 64; 32; 1; 32; 2; 65; 1; 118; 34; 3;
  32; 1; 106; 34; 7; 32; 7; 65; 2; 116; 65; 200; 213; 193; 128; 0; 106; 40; 2; 0; 32; 6; 75; 27; 33; 1; 32;
  2; 32; 3; 107; 34; 2; 65; 1; 75; 13; 0; 11; 2; 64; 2; 64; 2; 64; 32; 1; 65; 2; 116; 65; 200; 213; 193;
  128; 0; 106; 40; 2; 0; 32; 6; 70; 13; 0; 32; 0; 65; 0; 54; 2; 0; 12; 1; 11; 32; 1; 65; 191; 1; 75; 13; 1;
  32; 0; 65; 1; 54; 2; 0; 32; 0; 65; 8; 106; 32; 5; 54; 2; 0; 32; 0; 32; 1; 65; 2; 116; 65; 200; 219; 193;
  128; 0; 106; 40; 2; 0; 54; 2; 4; 11; 32; 4; 65; 16; 106; 36; 128; 128; 128; 128; 0; 15; 11; 32; 1; 65;
  192; 1; 16; 134; 128; 128; 128; 0; 0; 11; 218; 1; 1; 4; 127; 35; 128; 128; 128; 128; 0; 65; 16; 107; 34;
  4; 36; 128; 128; 128; 128; 0; 32; 4; 65; 8; 106; 32; 1; 32; 2; 32; 3; 16; 133; 128; 128; 128; 0; 65; 0;
  33; 1; 65; 201; 0; 33; 2; 32; 4; 40; 2; 12; 33; 5; 32; 4; 40; 2; 8; 33; 6; 3; 64; 32; 1; 32; 2; 65; 1;
  118; 34; 3; 32; 1; 106; 34; 7; 32; 7; 65; 2; 116; 65; 128; 209; 193; 128; 0; 106; 40; 2; 0; 32; 6; 75; 27;
  33; 1; 32; 2; 32; 3; 107; 34; 2; 65; 1; 75; 13; 0; 11; 2; 64; 2; 64; 2; 64; 32; 1; 65; 2; 116; 65; 128;
  209; 193; 128; 0; 106; 40; 2; 0; 32; 6; 70; 13; 0; 32; 0; 65; 0; 54; 2; 0; 12; 1; 11; 32; 1; 65; 200; 0;
  75; 13; 1; 32; 0; 65; 1; 54; 2; 0; 32; 0; 65; 8; 106; 32; 5; 54; 2; 0; 32; 0; 32; 1; 65; 2; 116; 65; 164;
  211; 193; 128; 0; 106; 40; 2; 0; 54; 2; 4; 11; 32; 4; 65; 16; 106; 36; 128; 128; 128; 128; 0; 15; 11; 32;
  1; 65; 201; 0; 16; 134; 128; 128; 128; 0; 0; 11; 215; 1; 1; 4; 127; 35; 128; 128; 128; 128; 0; 65; 16;
  107; 34; 4; 36; 128; 128; 128; 128; 0; 32; 4; 65; 8; 106; 32; 1; 32; 2; 32; 3; 16; 133; 128; 128; 128; 0;
  65; 0; 33; 1; 65; 4; 33; 2; 32; 4; 40; 2; 12; 33; 5; 32; 4; 40; 2; 8; 33; 6; 3; 64; 32; 1; 32; 2; 65; 1;
  118; 34; 3; 32; 1; 106; 34; 7; 32; 7; 65; 2; 116; 65; 224; 208; 193; 128; 0; 106; 40; 2; 0; 32; 6; 75; 27;
  33; 1; 32; 2; 32; 3; 107; 34; 2; 65; 1; 75; 13; 0; 11; 2; 64; 2; 64; 2; 64; 32; 1; 65; 2; 116; 65; 224;
  208; 193; 128; 0; 106; 40; 2; 0; 32; 6; 70; 13; 0; 32; 0; 65; 0; 54; 2; 0; 12; 1; 11; 32; 1; 65; 3; 75;
  13; 1; 32; 0; 65; 1; 54; 2; 0; 32; 0; 65; 8; 106; 32; 5; 54; 2; 0; 32; 0; 32; 1; 65; 2; 116; 65; 240; 208;
  193; 128; 0; 106; 40; 2; 0; 54; 2; 4; 11; 32; 4; 65; 16; 106; 36; 128; 128; 128; 128; 0; 15; 11; 32; 1;
  65; 4; 16; 134; 128; 128; 128; 0; 0; 11; 215; 1; 1; 4; 127; 35; 128; 128; 128; 128; 0; 65; 16; 107; 34; 4;
  36; 128; 128; 128; 128; 0; 32; 4; 65; 8; 106; 32; 1; 32; 2; 32; 3; 16; 133; 128; 128; 128; 0; 65; 0; 33;
  1; 65; 14; 33; 2; 32; 4; 40; 2; 12; 33; 5; 32; 4; 40; 2; 8; 33; 6; 3; 64; 32; 1; 32; 2; 65; 1; 118; 34; 3;
  32; 1; 106; 34; 7; 32; 7; 65; 2; 116; 65; 240; 207; 193; 128; 0; 106; 40; 2; 0; 32; 6; 75; 27; 33; 1; 32;
  2; 32; 3; 107; 34; 2; 65; 1; 75; 13; 0; 11; 2; 64; 2; 64; 2; 64; 32; 1; 65; 2; 116; 65; 240; 207; 193;
  128; 0; 106; 40; 2; 0; 32; 6; 70; 13; 0; 32; 0; 65; 0; 54; 2; 0; 12; 1; 11; 32; 1; 65; 13; 75; 13; 1; 32;
  0; 65; 1; 54; 2; 0; 32; 0; 65; 8; 106; 32; 5; 54; 2; 0; 32; 0; 32; 1; 65; 2; 116; 65; 168; 208; 193; 128;
  0; 106; 40; 2; 0; 54; 2; 4; 11; 32; 4; 65; 16; 106; 36; 128; 128; 128; 128; 0; 15; 11; 32; 1; 65; 14; 16;
  134; 128; 128; 128; 0; 0; 11; 215; 1; 1; 4; 127; 35; 128; 128; 128; 128; 0; 65; 16; 107; 34; 4; 36; 128;
  128; 128; 128; 0; 32; 4; 65; 8; 106; 32; 1; 32; 2; 32; 3; 16; 133; 128; 128; 128; 0; 65; 0; 33; 1; 65; 4;
  33; 2; 32; 4; 40; 2; 12; 33; 5; 32; 4; 40; 2; 8; 33; 6; 3; 64; 32; 1; 32; 2; 65; 1; 118; 34; 3; 32; 1;
  106; 34; 7; 32; 7; 65; 2; 116; 65; 208; 207; 193; 128; 0; 106; 40; 2; 0; 32; 6; 75; 27; 33; 1; 32; 2; 32;
  3; 107; 34; 2; 65; 1; 75; 13; 0; 11; 2; 64; 2; 64; 2; 64; 32; 1; 65; 2; 116; 65; 208; 207; 193; 128; 0;
  106; 40; 2; 0; 32; 6; 70; 13; 0; 32; 0; 65; 0; 54; 2; 0; 12; 1; 11; 32; 1; 65; 3; 75; 13; 1; 32; 0; 65; 1;
  54; 2; 0; 32; 0; 65; 8; 106; 32; 5; 54; 2; 0; 32; 0; 32; 1; 65; 2; 116; 65; 224; 207; 193; 128; 0; 106;
  40; 2; 0; 54; 2; 4; 11; 32; 4; 65; 16; 106; 36; 128; 128; 128; 128; 0; 15; 11; 32; 1; 65; 4; 16; 134; 128;
  128; 128; 0; 0; 11; 215; 1; 1; 4; 127; 35; 128; 128; 128; 128; 0; 65; 16; 107; 34; 4; 36; 128; 128; 128;
  128; 0; 32; 4; 65; 8; 106; 32; 1; 32; 2; 32; 3; 16; 133; 128; 128; 128; 0; 65; 0; 33; 1; 65; 4; 33; 2; 32;
  4; 40; 2; 12; 33; 5; 32; 4; 40; 2; 8; 33; 6; 3; 64; 32; 1; 32; 2; 65; 1; 118; 34; 3; 32; 1; 106; 34; 7;
  32; 7; 65; 2; 116; 65; 176; 207; 193; 128; 0; 106; 40; 2; 0; 32; 6; 75; 27; 33; 1; 32; 2; 32; 3; 107; 34;
  2; 65; 1; 75; 13; 0; 11; 2; 64; 2; 64; 2; 64; 32; 1; 65; 2; 116; 65; 176; 207; 193; 128; 0; 106; 40; 2; 0;
  32; 6; 70; 13; 0; 32; 0; 65; 0; 54; 2; 0; 12; 1; 11; 32; 1; 65; 3; 75; 13; 1; 32; 0; 65; 1; 54; 2; 0; 32;
  0; 65; 8; 106; 32; 5; 54; 2; 0; 32; 0; 32; 1; 65; 2; 116; 65; 192; 207; 193; 128; 0; 106; 40; 2; 0; 54; 2;
  4; 11; 32; 4; 65; 16; 106; 36; 128; 128; 128; 128; 0; 15; 11; 32; 1; 65; 4; 16; 134; 128; 128; 128; 0; 0;
  11; 139; 1; 1; 1; 127; 35; 128; 128; 128; 128; 0; 65; 16; 107; 34; 4; 36; 128; 128; 128; 128; 0; 32; 4;
  65; 8; 106; 32; 1; 32; 2; 32; 3; 16; 133; 128; 128; 128; 0; 2; 64; 2; 64; 32; 4; 40; 2; 8; 34; 1; 65; 234;
  188; 172; 142; 120; 75; 65; 2; 116; 34; 2; 65; 160; 207; 193; 128; 0; 106; 40; 2; 0; 32; 1; 70; 13; 0; 32;
  0; 65; 0; 54; 2; 0; 12; 1; 11; 32; 4; 40; 2; 12; 33; 1; 32; 0; 65; 1; 54; 2; 0; 32; 0; 65; 8; 106; 32; 1;
  54; 2; 0; 32; 0; 32; 2; 65; 168; 207; 193; 128; 0; 106; 40; 2; 0; 54; 2; 4; 11; 32; 4; 65; 16; 106; 36;
  128; 128; 128; 128; 0; 11; 218; 1; 1; 4; 127; 35; 128; 128; 128; 128; 0; 65; 16; 107; 34; 4; 36; 128; 128;
  128; 128; 0; 32; 4; 65; 8; 106; 32; 1; 32; 2; 32; 3; 16; 133; 128; 128; 128; 0; 65; 0; 33; 1; 65; 175; 2;
  33; 2; 32; 4; 40; 2; 12; 33; 5; 32; 4; 40; 2; 8; 33; 6; 3; 64; 32; 1; 32; 2; 65; 1; 118; 34; 3; 32; 1;
  106; 34; 7; 32; 7; 65; 2; 116; 65; 168; 188; 193; 128; 0; 106; 40; 2; 0; 32; 6; 75; 27; 33; 1; 32; 2; 32;
  3; 107; 34; 2; 65; 1; 75; 13; 0; 11; 2; 64; 2; 64; 2; 64; 32; 1; 65; 2; 116; 65; 168; 188; 193; 128; 0;
  106; 40; 2; 0; 32; 6; 70; 13; 0; 32; 0; 65; 0; 54; 2; 0; 12; 1; 11; 32; 1; 65; 174; 2; 75; 13; 1; 32; 0;
  65; 1; 54; 2; 0; 32; 0; 65; 8; 106; 32; 5; 54; 2; 0; 32; 0; 32; 1; 65; 2; 116; 65; 228; 197; 193; 128; 0;
  106; 40; 2; 0; 54; 2; 4; 11; 32; 4; 65; 16; 106; 36; 128; 128; 128; 128; 0; 15; 11; 32; 1; 65; 175; 2; 16;
  134; 128; 128; 128; 0; 0; 11; 215; 1; 1; 4; 127; 35; 128; 128; 128; 128; 0; 65; 16; 107; 34; 4; 36; 128;
  128; 128; 128; 0; 32; 4; 65; 8; 106; 32; 1; 32; 2; 32; 3; 16; 133; 128; 128; 128; 0; 65; 0; 33; 1; 65; 19;
  33; 2; 32; 4; 40; 2; 12; 33; 5; 32; 4; 40; 2; 8; 33; 6; 3; 64; 32; 1; 32; 2; 65; 1; 118; 34; 3; 32; 1;
  106; 34; 7; 32; 7; 65; 2; 116; 65; 144; 187; 193; 128; 0; 106; 40; 2; 0; 32; 6; 75; 27; 33; 1; 32; 2; 32;
  3; 107; 34; 2; 65; 1; 75; 13; 0; 11; 2; 64; 2; 64; 2; 64; 32; 1; 65; 2; 116; 65; 144; 187; 193; 128; 0;
  106; 40; 2; 0; 32; 6; 70; 13; 0; 32; 0; 65; 0; 54; 2; 0; 12; 1; 11; 32; 1; 65; 18; 75; 13; 1; 32; 0; 65;
  1; 54; 2; 0; 32; 0; 65; 8; 106; 32; 5; 54; 2; 0; 32; 0; 32; 1; 65; 2; 116; 65; 220; 187; 193; 128; 0; 106;
  40; 2; 0; 54; 2; 4; 11; 32; 4; 65; 16; 106; 36; 128; 128; 128; 128; 0; 15; 11; 32; 1; 65; 19; 16; 134;
  128; 128; 128; 0; 0; 11; 218; 1; 1; 4; 127; 35; 128; 128; 128; 128; 0; 65; 16; 107; 34; 4; 36; 128; 128;
  128; 128; 0; 32; 4; 65; 8; 106; 32; 1; 32; 2; 32; 3; 16; 133; 128; 128; 128; 0; 65; 0; 33; 1; 65; 240; 12;
  33; 2; 32; 4; 40; 2; 12; 33; 5; 32; 4; 40; 2; 8; 33; 6; 3; 64; 32; 1; 32; 2; 65; 1; 118; 34; 3; 32; 1;
  106; 34; 7; 32; 7; 65; 2; 116; 65; 144; 212; 192; 128; 0; 106; 40; 2; 0; 32; 6; 75; 27; 33; 1; 32; 2; 32;
  3; 107; 34; 2; 65; 1; 75; 13; 0; 11; 2; 64; 2; 64; 2; 64; 32; 1; 65; 2; 116; 65; 144; 212; 192; 128; 0;
  106; 40; 2; 0; 32; 6; 70; 13; 0; 32; 0; 65; 0; 54; 2; 0; 12; 1; 11; 32; 1; 65; 239; 12; 75; 13; 1; 32; 0;
  65; 1; 54; 2; 0; 32; 0; 65; 8; 106; 32; 5; 54; 2; 0; 32; 0; 32; 1; 65; 2; 116; 65; 208; 135; 193; 128; 0;
  106; 40; 2; 0; 54; 2; 4; 11; 32; 4; 65; 16; 106; 36; 128; 128; 128; 128; 0; 15; 11; 32; 1; 65; 240; 12;
  16; 134; 128; 128; 128; 0; 0; 11; 218; 1; 1; 4; 127; 35; 128; 128; 128; 128; 0; 65; 16; 107; 34; 4; 36;
  128; 128; 128; 128; 0; 32; 4; 65; 8; 106; 32; 1; 32; 2; 32; 3; 16; 133; 128; 128; 128; 0; 65; 0; 33; 1;
  65; 193; 1; 33; 2; 32; 4; 40; 2; 12; 33; 5; 32; 4; 40; 2; 8; 33; 6; 3; 64; 32; 1; 32; 2; 65; 1; 118; 34;
  3; 32; 1; 106; 34; 7; 32; 7; 65; 2; 116; 65; 136; 200; 192; 128; 0; 106; 40; 2; 0; 32; 6; 75; 27; 33; 1;
  32; 2; 32; 3; 107; 34; 2; 65; 1; 75; 13; 0; 11; 2; 64; 2; 64; 2; 64; 32; 1; 65; 2; 116; 65; 136; 200; 192;
  128; 0; 106; 40; 2; 0; 32; 6; 70; 13; 0; 32; 0; 65; 0; 54; 2; 0; 12; 1; 11; 32; 1; 65; 192; 1; 75; 13; 1;
  32; 0; 65; 1; 54; 2; 0; 32; 0; 65; 8; 106; 32; 5; 54; 2; 0; 32; 0; 32; 1; 65; 2; 116; 65; 140; 206; 192;
  128; 0; 106; 40; 2; 0; 54; 2; 4; 11; 32; 4; 65; 16; 106; 36; 128; 128; 128; 128; 0; 15; 11; 32; 1; 65;
  193; 1; 16; 134; 128; 128; 128; 0; 0; 11; 218; 1; 1; 4; 127; 35; 128; 128; 128; 128; 0; 65; 16; 107; 34;
  4; 36; 128; 128; 128; 128; 0; 32; 4; 65; 8; 106; 32; 1; 32; 2; 32; 3; 16; 133; 128; 128; 128; 0; 65; 0;
  33; 1; 65; 202; 1; 33; 2; 32; 4; 40; 2; 12; 33; 5; 32; 4; 40; 2; 8; 33; 6; 3; 64; 32; 1; 32; 2; 65; 1;
  118; 34; 3; 32; 1; 106; 34; 7; 32; 7; 65; 2; 116; 65; 184; 187; 192; 128; 0; 106; 40; 2; 0; 32; 6; 75; 27;
  33; 1; 32; 2; 32; 3; 107; 34; 2; 65; 1; 75; 13; 0; 11; 2; 64; 2; 64; 2; 64; 32; 1; 65; 2; 116; 65; 184;
  187; 192; 128; 0; 106; 40; 2; 0; 32; 6; 70; 13; 0; 32; 0; 65; 0; 54; 2; 0; 12; 1; 11; 32; 1; 65; 201; 1;
  75; 13; 1; 32; 0; 65; 1; 54; 2; 0; 32; 0; 65; 8; 106; 32; 5; 54; 2; 0; 32; 0; 32; 1; 65; 2; 116; 65; 224;
  193; 192; 128; 0; 106; 40; 2; 0; 54; 2; 4; 11; 32; 4; 65; 16; 106; 36; 128; 128; 128; 128; 0; 15; 11; 32;
  1; 65; 202; 1; 16; 134; 128; 128; 128; 0; 0; 11; 218; 1; 1; 4; 127; 35; 128; 128; 128; 128; 0; 65; 16;
  107; 34; 4; 36; 128; 128; 128; 128; 0; 32; 4; 65; 8; 106; 32; 1; 32; 2; 32; 3; 16; 133; 128; 128; 128; 0;
  65; 0; 33; 1; 65; 242; 6; 33; 2; 32; 4; 40; 2; 12; 33; 5; 32; 4; 40; 2; 8; 33; 6; 3; 64; 32; 1; 32; 2; 65;
  1; 118; 34; 3; 32; 1; 106; 34; 7; 32; 7; 65; 2; 116; 65; 168; 132; 192; 128; 0; 106; 40; 2; 0; 32; 6; 75;
  27; 33; 1; 32; 2; 32; 3; 107; 34; 2; 65; 1; 75; 13; 0; 11; 2; 64; 2; 64; 2; 64; 32; 1; 65; 2; 116; 65;
  168; 132; 192; 128; 0; 106; 40; 2; 0; 32; 6; 70; 13; 0; 32; 0; 65; 0; 54; 2; 0; 12; 1; 11; 32; 1; 65; 241;
  6; 75; 13; 1; 32; 0; 65; 1; 54; 2; 0; 32; 0; 65; 8; 106; 32; 5; 54; 2; 0; 32; 0; 32; 1; 65; 2; 116; 65;
  240; 159; 192; 128; 0; 106; 40; 2; 0; 54; 2; 4; 11; 32; 4; 65; 16; 106; 36; 128; 128; 128; 128; 0; 15; 11;
  32; 1; 65; 242; 6; 16; 134; 128; 128; 128; 0; 0; 11; 135; 72; 1; 18; 127; 35; 128; 128; 128; 128; 0; 65;
  224; 2; 107; 34; 6; 36; 128; 128; 128; 128; 0; 2; 64; 2; 64; 2; 64; 32; 1; 65; 12; 106; 40; 2; 0; 34; 7;
  65; 152; 4; 75; 13; 0; 32; 1; 40; 2; 8; 34; 8; 65; 208; 2; 75; 13; 0; 32; 1; 40; 2; 0; 34; 9; 32; 8; 79;
  13; 0; 2; 64; 2; 64; 2; 64; 2; 64; 2; 64; 2; 64; 2; 64; 2; 64; 2; 64; 2; 64; 2; 64; 2; 64; 2; 64; 2; 64;
  2; 64; 2; 64; 2; 64; 2; 64; 2; 64; 2; 64; 2; 64; 2; 64; 2; 64; 2; 64; 2; 64; 2; 64; 2; 64; 2; 64; 2; 64;
  2; 64; 2; 64; 2; 64; 2; 64; 2; 64; 2; 64; 2; 64; 2; 64; 2; 64; 2; 64; 2; 64; 2; 64; 2; 64; 2; 64; 2; 64;
  2; 64; 2; 64; 2; 64; 2; 64; 2; 64; 2; 64; 2; 64; 2; 64; 2; 64; 32; 5; 65; 255; 1; 113; 14; 5; 1; 2; 3; 4;
  0; 1; 11; 2; 64; 32; 3; 44; 0; 0; 34; 10; 65; 127; 76; 13; 0; 32; 10; 65; 255; 1; 113; 33; 10; 12; 38; 11;
  65; 0; 33; 11; 32; 3; 32; 4; 106; 34; 12; 33; 13; 2; 64; 32; 4; 65; 1; 70; 13; 0; 32; 3; 65; 2; 106; 33;
  13; 32; 3; 45; 0; 1; 65; 63; 113; 33; 11; 11; 32; 10; 65; 31; 113; 33; 14; 2; 64; 32; 10; 65; 255; 1; 113;
  65; 223; 1; 75; 13; 0; 32; 11; 32; 14; 65; 6; 116; 114; 33; 10; 12; 38; 11; 2; 64; 2; 64; 32; 13; 32; 12;
  71; 13; 0; 65; 0; 33; 13; 32; 12; 33; 15; 12; 1; 11; 32; 13; 65; 1; 106; 33; 15; 32; 13; 45; 0; 0; 65; 63;
  113; 33; 13; 11; 32; 13; 32; 11; 65; 6; 116; 114; 33; 13; 2; 64; 32; 10; 65; 255; 1; 113; 65; 240; 1; 79;
  13; 0; 32; 13; 32; 14; 65; 12; 116; 114; 33; 10; 12; 38; 11; 2; 64; 2; 64; 32; 15; 32; 12; 71; 13; 0; 65;
  0; 33; 10; 12; 1; 11; 32; 15; 45; 0; 0; 65; 63; 113; 33; 10; 11; 32; 13; 65; 6; 116; 32; 14; 65; 18; 116;
  65; 128; 128; 240; 0; 113; 114; 32; 10; 114; 34; 10; 65; 128; 128; 196; 0; 71; 13; 37; 12; 51; 11; 2; 64;
  2; 64; 2; 64; 2; 64; 2; 64; 2; 64; 2; 64; 2; 64; 2; 64; 2; 64; 2; 64; 2; 64; 2; 64; 2; 64; 2; 64; 2; 64;
  2; 64; 2; 64; 2; 64; 2; 64; 2; 64; 2; 64; 2; 64; 2; 64; 2; 64; 2; 64; 32; 3; 44; 0; 0; 34; 10; 65; 127;
  74; 13; 0; 65; 0; 33; 11; 32; 3; 32; 4; 106; 34; 12; 33; 13; 2; 64; 32; 4; 65; 1; 70; 13; 0; 32; 3; 65; 2;
  106; 33; 13; 32; 3; 45; 0; 1; 65; 63; 113; 33; 11; 11; 32; 10; 65; 31; 113; 33; 14; 2; 64; 2; 64; 32; 10;
  65; 255; 1; 113; 65; 224; 1; 79; 13; 0; 32; 11; 32; 14; 65; 6; 116; 114; 33; 10; 12; 1; 11; 2; 64; 2; 64;
  32; 13; 32; 12; 71; 13; 0; 65; 0; 33; 13; 32; 12; 33; 15; 12; 1; 11; 32; 13; 65; 1; 106; 33; 15; 32; 13;
  45; 0; 0; 65; 63; 113; 33; 13; 11; 32; 13; 32; 11; 65; 6; 116; 114; 33; 13; 2; 64; 32; 10; 65; 255; 1;
  113; 65; 240; 1; 79; 13; 0; 32; 13; 32; 14; 65; 12; 116; 114; 33; 10; 12; 1; 11; 2; 64; 2; 64; 32; 15; 32;
  12; 71; 13; 0; 65; 0; 33; 10; 12; 1; 11; 32; 15; 45; 0; 0; 65; 63; 113; 33; 10; 11; 32; 13; 65; 6; 116;
  32; 14; 65; 18; 116; 65; 128; 128; 240; 0; 113; 114; 32; 10; 114; 34; 10; 65; 128; 128; 196; 0; 70; 13;
  77; 11; 32; 10; 65; 128; 1; 73; 13; 0; 32; 10; 65; 128; 2; 73; 13; 1; 32; 10; 65; 128; 64; 106; 65; 240;
  0; 73; 13; 2; 32; 10; 65; 128; 190; 127; 106; 65; 208; 0; 73; 13; 3; 32; 10; 65; 240; 188; 127; 106; 65;
  240; 0; 73; 13; 4; 32; 10; 65; 128; 254; 255; 0; 113; 34; 13; 65; 128; 198; 0; 70; 13; 5; 32; 10; 65; 160;
  183; 127; 106; 65; 160; 1; 73; 13; 6; 32; 10; 65; 224; 180; 127; 106; 65; 224; 0; 73; 13; 7; 32; 13; 65;
  128; 204; 0; 70; 13; 8; 32; 10; 65; 128; 178; 127; 106; 65; 192; 1; 73; 13; 9; 32; 10; 65; 128; 255; 255;
  0; 113; 34; 11; 65; 128; 210; 0; 70; 13; 10; 32; 13; 65; 128; 214; 0; 70; 13; 11; 32; 10; 65; 192; 255;
  255; 0; 113; 65; 128; 224; 0; 70; 13; 12; 32; 13; 65; 128; 228; 0; 70; 13; 13; 32; 10; 65; 128; 192; 124;
  106; 65; 128; 50; 73; 13; 14; 32; 10; 65; 128; 160; 120; 106; 65; 48; 73; 13; 15; 32; 10; 65; 224; 158;
  120; 106; 65; 224; 0; 73; 13; 16; 32; 13; 65; 128; 226; 7; 70; 13; 17; 32; 13; 65; 128; 228; 7; 70; 13;
  18; 32; 10; 65; 128; 154; 120; 106; 65; 128; 6; 73; 13; 19; 32; 10; 65; 128; 148; 120; 106; 65; 208; 0;
  73; 13; 20; 32; 11; 65; 128; 237; 7; 70; 13; 21; 32; 11; 65; 128; 239; 7; 70; 13; 22; 32; 13; 65; 128;
  242; 7; 70; 13; 24; 32; 10; 65; 144; 139; 120; 106; 65; 144; 1; 79; 13; 76; 32; 6; 65; 24; 106; 32; 3; 32;
  4; 65; 1; 16; 133; 128; 128; 128; 0; 65; 0; 33; 10; 65; 57; 33; 4; 32; 6; 40; 2; 28; 33; 3; 32; 6; 40; 2;
  24; 33; 14; 3; 64; 32; 10; 32; 4; 65; 1; 118; 34; 13; 32; 10; 106; 34; 11; 32; 11; 65; 2; 116; 65; 224;
  128; 192; 128; 0; 106; 40; 2; 0; 32; 14; 75; 27; 33; 10; 32; 4; 32; 13; 107; 34; 4; 65; 1; 75; 13; 0; 11;
  32; 10; 65; 2; 116; 65; 224; 128; 192; 128; 0; 106; 40; 2; 0; 32; 14; 71; 13; 76; 32; 10; 65; 57; 79; 13;
  39; 32; 10; 65; 2; 116; 65; 196; 130; 192; 128; 0; 106; 40; 2; 0; 33; 14; 12; 23; 11; 32; 6; 65; 192; 2;
  106; 32; 3; 32; 4; 65; 3; 16; 132; 128; 128; 128; 0; 2; 64; 32; 6; 40; 2; 192; 2; 65; 1; 70; 13; 0; 32; 6;
  65; 208; 2; 106; 32; 3; 32; 4; 65; 2; 16; 132; 128; 128; 128; 0; 65; 0; 65; 5; 32; 6; 40; 2; 208; 2; 65;
  1; 70; 27; 33; 12; 32; 6; 65; 216; 2; 106; 40; 2; 0; 33; 3; 32; 6; 40; 2; 212; 2; 33; 14; 12; 52; 11; 32;
  6; 65; 200; 2; 106; 40; 2; 0; 33; 3; 12; 50; 11; 32; 6; 65; 192; 2; 106; 32; 3; 32; 4; 65; 2; 16; 135;
  128; 128; 128; 0; 2; 64; 32; 6; 40; 2; 192; 2; 65; 1; 70; 13; 0; 32; 6; 65; 208; 2; 106; 32; 3; 32; 4; 65;
  1; 16; 135; 128; 128; 128; 0; 65; 0; 65; 5; 32; 6; 40; 2; 208; 2; 65; 1; 70; 27; 33; 12; 32; 6; 65; 216;
  2; 106; 40; 2; 0; 33; 3; 32; 6; 40; 2; 212; 2; 33; 14; 12; 51; 11; 32; 6; 65; 200; 2; 106; 40; 2; 0; 33;
  3; 12; 49; 11; 32; 6; 65; 192; 2; 106; 32; 3; 32; 4; 65; 2; 16; 136; 128; 128; 128; 0; 2; 64; 32; 6; 40;
  2; 192; 2; 65; 1; 70; 13; 0; 32; 6; 65; 208; 2; 106; 32; 3; 32; 4; 65; 1; 16; 136; 128; 128; 128; 0; 65;
  0; 65; 5; 32; 6; 40; 2; 208; 2; 65; 1; 70; 27; 33; 12; 32; 6; 65; 216; 2; 106; 40; 2; 0; 33; 3; 32; 6; 40;
  2; 212; 2; 33; 14; 12; 50; 11; 32; 6; 65; 200; 2; 106; 40; 2; 0; 33; 3; 12; 48; 11; 32; 6; 65; 192; 2;
  106; 32; 3; 32; 4; 65; 2; 16; 137; 128; 128; 128; 0; 2; 64; 32; 6; 40; 2; 192; 2; 65; 1; 70; 13; 0; 32; 6;
  65; 208; 2; 106; 32; 3; 32; 4; 65; 1; 16; 137; 128; 128; 128; 0; 65; 0; 65; 5; 32; 6; 40; 2; 208; 2; 65;
  1; 70; 27; 33; 12; 32; 6; 65; 216; 2; 106; 40; 2; 0; 33; 3; 32; 6; 40; 2; 212; 2; 33; 14; 12; 49; 11; 32;
  6; 65; 200; 2; 106; 40; 2; 0; 33; 3; 12; 47; 11; 32; 6; 65; 192; 2; 106; 32; 3; 32; 4; 65; 2; 16; 138;
  128; 128; 128; 0; 2; 64; 32; 6; 40; 2; 192; 2; 65; 1; 70; 13; 0; 32; 6; 65; 208; 2; 106; 32; 3; 32; 4; 65;
  1; 16; 138; 128; 128; 128; 0; 65; 0; 65; 5; 32; 6; 40; 2; 208; 2; 65; 1; 70; 27; 33; 12; 32; 6; 65; 216;
  2; 106; 40; 2; 0; 33; 3; 32; 6; 40; 2; 212; 2; 33; 14; 12; 48; 11; 32; 6; 65; 200; 2; 106; 40; 2; 0; 33;
  3; 12; 46; 11; 32; 6; 65; 192; 2; 106; 32; 3; 32; 4; 65; 2; 16; 139; 128; 128; 128; 0; 2; 64; 32; 6; 40;
  2; 192; 2; 65; 1; 70; 13; 0; 32; 6; 65; 208; 2; 106; 32; 3; 32; 4; 65; 1; 16; 139; 128; 128; 128; 0; 65;
  0; 65; 5; 32; 6; 40; 2; 208; 2; 65; 1; 70; 27; 33; 12; 32; 6; 65; 216; 2; 106; 40; 2; 0; 33; 3; 32; 6; 40;
  2; 212; 2; 33; 14; 12; 47; 11; 32; 6; 65; 200; 2; 106; 40; 2; 0; 33; 3; 12; 45; 11; 32; 6; 65; 192; 2;
  106; 32; 3; 32; 4; 65; 2; 16; 140; 128; 128; 128; 0; 2; 64; 32; 6; 40; 2; 192; 2; 65; 1; 70; 13; 0; 32; 6;
  65; 208; 2; 106; 32; 3; 32; 4; 65; 1; 16; 140; 128; 128; 128; 0; 65; 0; 65; 5; 32; 6; 40; 2; 208; 2; 65;
  1; 70; 27; 33; 12; 32; 6; 65; 216; 2; 106; 40; 2; 0; 33; 3; 32; 6; 40; 2; 212; 2; 33; 14; 12; 46; 11; 32;
  6; 65; 200; 2; 106; 40; 2; 0; 33; 3; 12; 44; 11; 32; 6; 65; 192; 2; 106; 32; 3; 32; 4; 65; 2; 16; 141;
  128; 128; 128; 0; 2; 64; 32; 6; 40; 2; 192; 2; 65; 1; 70; 13; 0; 32; 6; 65; 208; 2; 106; 32; 3; 32; 4; 65;
  1; 16; 141; 128; 128; 128; 0; 65; 0; 65; 5; 32; 6; 40; 2; 208; 2; 65; 1; 70; 27; 33; 12; 32; 6; 65; 216;
  2; 106; 40; 2; 0; 33; 3; 32; 6; 40; 2; 212; 2; 33; 14; 12; 45; 11; 32; 6; 65; 200; 2; 106; 40; 2; 0; 33;
  3; 12; 43; 11; 32; 6; 65; 176; 2; 106; 32; 3; 32; 4; 65; 5; 16; 142; 128; 128; 128; 0; 2; 64; 2; 64; 32;
  6; 40; 2; 176; 2; 65; 1; 70; 13; 0; 32; 6; 65; 192; 2; 106; 32; 3; 32; 4; 65; 2; 16; 142; 128; 128; 128;
  0; 32; 6; 40; 2; 192; 2; 65; 1; 70; 13; 1; 32; 6; 65; 208; 2; 106; 32; 3; 32; 4; 65; 1; 16; 142; 128; 128;
  128; 0; 65; 0; 65; 5; 32; 6; 40; 2; 208; 2; 65; 1; 70; 27; 33; 12; 32; 6; 65; 216; 2; 106; 40; 2; 0; 33;
  3; 32; 6; 40; 2; 212; 2; 33; 14; 12; 45; 11; 32; 6; 65; 184; 2; 106; 40; 2; 0; 33; 3; 12; 42; 11; 32; 6;
  65; 200; 2; 106; 40; 2; 0; 33; 3; 12; 42; 11; 32; 6; 65; 192; 2; 106; 32; 3; 32; 4; 65; 2; 16; 143; 128;
  128; 128; 0; 2; 64; 32; 6; 40; 2; 192; 2; 65; 1; 70; 13; 0; 32; 6; 65; 208; 2; 106; 32; 3; 32; 4; 65; 1;
  16; 143; 128; 128; 128; 0; 65; 0; 65; 5; 32; 6; 40; 2; 208; 2; 65; 1; 70; 27; 33; 12; 32; 6; 65; 216; 2;
  106; 40; 2; 0; 33; 3; 32; 6; 40; 2; 212; 2; 33; 14; 12; 43; 11; 32; 6; 65; 200; 2; 106; 40; 2; 0; 33; 3;
  12; 41; 11; 32; 6; 65; 192; 2; 106; 32; 3; 32; 4; 65; 2; 16; 144; 128; 128; 128; 0; 2; 64; 32; 6; 40; 2;
  192; 2; 65; 1; 70; 13; 0; 32; 6; 65; 208; 2; 106; 32; 3; 32; 4; 65; 1; 16; 144; 128; 128; 128; 0; 65; 0;
  65; 5; 32; 6; 40; 2; 208; 2; 65; 1; 70; 27; 33; 12; 32; 6; 65; 216; 2; 106; 40; 2; 0; 33; 3; 32; 6; 40; 2;
  212; 2; 33; 14; 12; 42; 11; 32; 6; 65; 200; 2; 106; 40; 2; 0; 33; 3; 12; 40; 11; 32; 6; 65; 192; 2; 106;
  32; 3; 32; 4; 65; 2; 16; 145; 128; 128; 128; 0; 2; 64; 32; 6; 40; 2; 192; 2; 65; 1; 70; 13; 0; 32; 6; 65;
  208; 2; 106; 32; 3; 32; 4; 65; 1; 16; 145; 128; 128; 128; 0; 65; 0; 65; 5; 32; 6; 40; 2; 208; 2; 65; 1;
  70; 27; 33; 12; 32; 6; 65; 216; 2; 106; 40; 2; 0; 33; 3; 32; 6; 40; 2; 212; 2; 33; 14; 12; 41; 11; 32; 6;
  65; 200; 2; 106; 40; 2; 0; 33; 3; 12; 39; 11; 32; 6; 65; 192; 2; 106; 32; 3; 32; 4; 65; 2; 16; 146; 128;
  128; 128; 0; 2; 64; 32; 6; 40; 2; 192; 2; 65; 1; 70; 13; 0; 32; 6; 65; 208; 2; 106; 32; 3; 32; 4; 65; 1;
  16; 146; 128; 128; 128; 0; 65; 0; 65; 5; 32; 6; 40; 2; 208; 2; 65; 1; 70; 27; 33; 12; 32; 6; 65; 216; 2;
  106; 40; 2; 0; 33; 3; 32; 6; 40; 2; 212; 2; 33; 14; 12; 40; 11; 32; 6; 65; 200; 2; 106; 40; 2; 0; 33; 3;
  12; 38; 11; 32; 6; 65; 192; 2; 106; 32; 3; 32; 4; 65; 2; 16; 147; 128; 128; 128; 0; 2; 64; 32; 6; 40; 2;
  192; 2; 65; 1; 70; 13; 0; 32; 6; 65; 208; 2; 106; 32; 3; 32; 4; 65; 1; 16; 147; 128; 128; 128; 0; 65; 0;
  65; 5; 32; 6; 40; 2; 208; 2; 65; 1; 70; 27; 33; 12; 32; 6; 65; 216; 2; 106; 40; 2; 0; 33; 3; 32; 6; 40; 2;
  212; 2; 33; 14; 12; 39; 11; 32; 6; 65; 200; 2; 106; 40; 2; 0; 33; 3; 12; 37; 11; 65; 1; 33; 10; 32; 6; 65;
  8; 106; 32; 3; 32; 4; 65; 1; 16; 133; 128; 128; 128; 0; 32; 6; 40; 2; 8; 65; 179; 130; 153; 141; 125; 71;
  13; 64; 65; 0; 33; 12; 65; 188; 200; 5; 33; 14; 32; 6; 40; 2; 12; 33; 3; 12; 46; 11; 32; 6; 65; 192; 2;
  106; 32; 3; 32; 4; 65; 2; 16; 148; 128; 128; 128; 0; 2; 64; 32; 6; 40; 2; 192; 2; 65; 1; 70; 13; 0; 32; 6;
  65; 208; 2; 106; 32; 3; 32; 4; 65; 1; 16; 148; 128; 128; 128; 0; 65; 0; 65; 5; 32; 6; 40; 2; 208; 2; 65;
  1; 70; 27; 33; 12; 32; 6; 65; 216; 2; 106; 40; 2; 0; 33; 3; 32; 6; 40; 2; 212; 2; 33; 14; 12; 37; 11; 32;
  6; 65; 200; 2; 106; 40; 2; 0; 33; 3; 12; 35; 11; 65; 1; 33; 10; 32; 6; 65; 16; 106; 32; 3; 32; 4; 65; 1;
  16; 133; 128; 128; 128; 0; 32; 6; 40; 2; 16; 65; 215; 186; 244; 190; 7; 71; 13; 62; 65; 0; 33; 12; 65; 24;
  33; 14; 32; 6; 40; 2; 20; 33; 3; 12; 44; 11; 32; 6; 65; 192; 2; 106; 32; 3; 32; 4; 65; 2; 16; 149; 128;
  128; 128; 0; 2; 64; 32; 6; 40; 2; 192; 2; 65; 1; 70; 13; 0; 32; 6; 65; 208; 2; 106; 32; 3; 32; 4; 65; 1;
  16; 149; 128; 128; 128; 0; 65; 0; 65; 5; 32; 6; 40; 2; 208; 2; 65; 1; 70; 27; 33; 12; 32; 6; 65; 216; 2;
  106; 40; 2; 0; 33; 3; 32; 6; 40; 2; 212; 2; 33; 14; 12; 35; 11; 32; 6; 65; 200; 2; 106; 40; 2; 0; 33; 3;
  12; 33; 11; 32; 6; 65; 192; 2; 106; 32; 3; 32; 4; 65; 2; 16; 150; 128; 128; 128; 0; 2; 64; 32; 6; 40; 2;
  192; 2; 65; 1; 70; 13; 0; 32; 6; 65; 208; 2; 106; 32; 3; 32; 4; 65; 1; 16; 150; 128; 128; 128; 0; 65; 0;
  65; 5; 32; 6; 40; 2; 208; 2; 65; 1; 70; 27; 33; 12; 32; 6; 65; 216; 2; 106; 40; 2; 0; 33; 3; 32; 6; 40; 2;
  212; 2; 33; 14; 12; 34; 11; 32; 6; 65; 200; 2; 106; 40; 2; 0; 33; 3; 12; 32; 11; 32; 6; 65; 224; 1; 106;
  32; 3; 32; 4; 65; 8; 16; 151; 128; 128; 128; 0; 32; 6; 40; 2; 224; 1; 65; 1; 70; 13; 5; 32; 6; 65; 240; 1;
  106; 32; 3; 32; 4; 65; 7; 16; 151; 128; 128; 128; 0; 32; 6; 40; 2; 240; 1; 65; 1; 70; 13; 9; 32; 6; 65;
  128; 2; 106; 32; 3; 32; 4; 65; 6; 16; 151; 128; 128; 128; 0; 2; 64; 2; 64; 2; 64; 2; 64; 2; 64; 32; 6; 40;
  2; 128; 2; 65; 1; 70; 13; 0; 32; 6; 65; 144; 2; 106; 32; 3; 32; 4; 65; 5; 16; 151; 128; 128; 128; 0; 32;
  6; 40; 2; 144; 2; 65; 1; 70; 13; 1; 32; 6; 65; 160; 2; 106; 32; 3; 32; 4; 65; 4; 16; 151; 128; 128; 128;
  0; 32; 6; 40; 2; 160; 2; 65; 1; 70; 13; 2; 32; 6; 65; 176; 2; 106; 32; 3; 32; 4; 65; 3; 16; 151; 128; 128;
  128; 0; 32; 6; 40; 2; 176; 2; 65; 1; 70; 13; 3; 32; 6; 65; 192; 2; 106; 32; 3; 32; 4; 65; 2; 16; 151; 128;
  128; 128; 0; 32; 6; 40; 2; 192; 2; 65; 1; 70; 13; 4; 32; 6; 65; 208; 2; 106; 32; 3; 32; 4; 65; 1; 16; 151;
  128; 128; 128; 0; 65; 0; 65; 5; 32; 6; 40; 2; 208; 2; 65; 1; 70; 27; 33; 12; 32; 6; 65; 216; 2; 106; 40;
  2; 0; 33; 3; 32; 6; 40; 2; 212; 2; 33; 14; 12; 37; 11; 32; 6; 65; 136; 2; 106; 40; 2; 0; 33; 3; 12; 33;
  11; 32; 6; 65; 152; 2; 106; 40; 2; 0; 33; 3; 12; 31; 11; 32; 6; 65; 168; 2; 106; 40; 2; 0; 33; 3; 12; 29;
  11; 32; 6; 65; 184; 2; 106; 40; 2; 0; 33; 3; 12; 31; 11; 32; 6; 65; 200; 2; 106; 40; 2; 0; 33; 3; 12; 31;
  11; 32; 6; 65; 160; 2; 106; 32; 3; 32; 4; 65; 5; 16; 152; 128; 128; 128; 0; 32; 6; 40; 2; 160; 2; 65; 1;
  70; 13; 9; 32; 6; 65; 176; 2; 106; 32; 3; 32; 4; 65; 4; 16; 152; 128; 128; 128; 0; 32; 6; 40; 2; 176; 2;
  65; 1; 70; 13; 10; 32; 6; 65; 192; 2; 106; 32; 3; 32; 4; 65; 2; 16; 152; 128; 128; 128; 0; 2; 64; 32; 6;
  40; 2; 192; 2; 65; 1; 70; 13; 0; 32; 6; 65; 208; 2; 106; 32; 3; 32; 4; 65; 1; 16; 152; 128; 128; 128; 0;
  65; 0; 65; 5; 32; 6; 40; 2; 208; 2; 65; 1; 70; 27; 33; 12; 32; 6; 65; 216; 2; 106; 40; 2; 0; 33; 3; 32; 6;
  40; 2; 212; 2; 33; 14; 12; 32; 11; 32; 6; 65; 200; 2; 106; 40; 2; 0; 33; 3; 12; 30; 11; 32; 6; 65; 160; 2;
  106; 32; 3; 32; 4; 65; 5; 16; 153; 128; 128; 128; 0; 32; 6; 40; 2; 160; 2; 65; 1; 70; 13; 10; 32; 6; 65;
  176; 2; 106; 32; 3; 32; 4; 65; 4; 16; 153; 128; 128; 128; 0; 32; 6; 40; 2; 176; 2; 65; 1; 70; 13; 11; 32;
  6; 65; 192; 2; 106; 32; 3; 32; 4; 65; 2; 16; 153; 128; 128; 128; 0; 2; 64; 32; 6; 40; 2; 192; 2; 65; 1;
  70; 13; 0; 32; 6; 65; 208; 2; 106; 32; 3; 32; 4; 65; 1; 16; 153; 128; 128; 128; 0; 65; 0; 65; 5; 32; 6;
  40; 2; 208; 2; 65; 1; 70; 27; 33; 12; 32; 6; 65; 216; 2; 106; 40; 2; 0; 33; 3; 32; 6; 40; 2; 212; 2; 33;
  14; 12; 31; 11; 32; 6; 65; 200; 2; 106; 40; 2; 0; 33; 3; 12; 29; 11; 32; 6; 65; 32; 106; 32; 3; 32; 4; 65;
  1; 16; 133; 128; 128; 128; 0; 65; 0; 33; 10; 65; 12; 33; 4; 32; 6; 40; 2; 36; 33; 3; 32; 6; 40; 2; 32; 33;
  14; 3; 64; 32; 10; 32; 4; 65; 1; 118; 34; 13; 32; 10; 106; 34; 11; 32; 11; 65; 2; 116; 65; 128; 128; 192;
  128; 0; 106; 40; 2; 0; 32; 14; 75; 27; 33; 10; 32; 4; 32; 13; 107; 34; 4; 65; 1; 75; 13; 0; 11; 32; 10;
  65; 2; 116; 65; 128; 128; 192; 128; 0; 106; 40; 2; 0; 32; 14; 71; 13; 53; 32; 10; 65; 12; 79; 13; 11; 32;
  10; 65; 2; 116; 65; 176; 128; 192; 128; 0; 106; 40; 2; 0; 33; 14; 11; 65; 0; 33; 12; 12; 36; 11; 32; 6;
  65; 128; 2; 106; 32; 3; 32; 4; 65; 7; 16; 154; 128; 128; 128; 0; 32; 6; 40; 2; 128; 2; 65; 1; 70; 13; 10;
  32; 6; 65; 144; 2; 106; 32; 3; 32; 4; 65; 5; 16; 154; 128; 128; 128; 0; 32; 6; 40; 2; 144; 2; 65; 1; 70;
  13; 11; 32; 6; 65; 160; 2; 106; 32; 3; 32; 4; 65; 4; 16; 154; 128; 128; 128; 0; 32; 6; 40; 2; 160; 2; 65;
  1; 70; 13; 12; 32; 6; 65; 176; 2; 106; 32; 3; 32; 4; 65; 3; 16; 154; 128; 128; 128; 0; 32; 6; 40; 2; 176;
  2; 65; 1; 70; 13; 13; 32; 6; 65; 192; 2; 106; 32; 3; 32; 4; 65; 2; 16; 154; 128; 128; 128; 0; 2; 64; 32;
  6; 40; 2; 192; 2; 65; 1; 70; 13; 0; 32; 6; 65; 208; 2; 106; 32; 3; 32; 4; 65; 1; 16; 154; 128; 128; 128;
  0; 65; 0; 65; 5; 32; 6; 40; 2; 208; 2; 65; 1; 70; 27; 33; 12; 32; 6; 65; 216; 2; 106; 40; 2; 0; 33; 3; 32;
  6; 40; 2; 212; 2; 33; 14; 12; 28; 11; 32; 6; 65; 200; 2; 106; 40; 2; 0; 33; 3; 12; 26; 11; 32; 6; 65; 224;
  1; 106; 65; 8; 106; 40; 2; 0; 33; 3; 65; 0; 33; 12; 32; 6; 40; 2; 228; 1; 33; 14; 12; 26; 11; 2; 64; 2;
  64; 2; 64; 2; 64; 2; 64; 2; 64; 2; 64; 2; 64; 32; 3; 44; 0; 0; 34; 10; 65; 127; 74; 13; 0; 65; 0; 33; 11;
  32; 3; 32; 4; 106; 34; 12; 33; 13; 2; 64; 32; 4; 65; 1; 70; 13; 0; 32; 3; 65; 2; 106; 33; 13; 32; 3; 45;
  0; 1; 65; 63; 113; 33; 11; 11; 32; 10; 65; 31; 113; 33; 14; 2; 64; 2; 64; 32; 10; 65; 255; 1; 113; 65;
  224; 1; 79; 13; 0; 32; 11; 32; 14; 65; 6; 116; 114; 33; 10; 12; 1; 11; 2; 64; 2; 64; 32; 13; 32; 12; 71;
  13; 0; 65; 0; 33; 13; 32; 12; 33; 15; 12; 1; 11; 32; 13; 65; 1; 106; 33; 15; 32; 13; 45; 0; 0; 65; 63;
  113; 33; 13; 11; 32; 13; 32; 11; 65; 6; 116; 114; 33; 13; 2; 64; 32; 10; 65; 255; 1; 113; 65; 240; 1; 79;
  13; 0; 32; 13; 32; 14; 65; 12; 116; 114; 33; 10; 12; 1; 11; 2; 64; 2; 64; 32; 15; 32; 12; 71; 13; 0; 65;
  0; 33; 10; 12; 1; 11; 32; 15; 45; 0; 0; 65; 63; 113; 33; 10; 11; 32; 13; 65; 6; 116; 32; 14; 65; 18; 116;
  65; 128; 128; 240; 0; 113; 114; 32; 10; 114; 34; 10; 65; 128; 128; 196; 0; 70; 13; 58; 11; 32; 10; 65;
  128; 1; 73; 13; 0; 32; 10; 65; 128; 2; 73; 13; 1; 32; 10; 65; 128; 3; 73; 13; 2; 32; 10; 65; 128; 64; 106;
  65; 240; 0; 73; 13; 3; 32; 10; 65; 224; 190; 127; 106; 65; 48; 73; 13; 4; 32; 10; 65; 240; 255; 255; 0;
  113; 65; 240; 255; 3; 71; 13; 57; 65; 1; 33; 12; 32; 6; 65; 200; 0; 106; 32; 3; 32; 4; 65; 1; 16; 133;
  128; 128; 128; 0; 32; 6; 40; 2; 72; 65; 181; 180; 151; 197; 5; 70; 13; 5; 12; 27; 11; 32; 6; 65; 192; 2;
  106; 32; 3; 32; 4; 65; 2; 16; 157; 128; 128; 128; 0; 32; 6; 40; 2; 192; 2; 65; 1; 70; 13; 5; 32; 6; 65;
  208; 2; 106; 32; 3; 32; 4; 65; 1; 16; 157; 128; 128; 128; 0; 32; 6; 40; 2; 208; 2; 65; 1; 71; 13; 56; 32;
  6; 65; 216; 2; 106; 40; 2; 0; 33; 3; 32; 6; 40; 2; 212; 2; 33; 14; 12; 6; 11; 32; 6; 65; 40; 106; 32; 3;
  32; 4; 65; 1; 16; 133; 128; 128; 128; 0; 65; 0; 33; 10; 65; 224; 0; 33; 4; 32; 6; 40; 2; 44; 33; 3; 32; 6;
  40; 2; 40; 33; 14; 3; 64; 32; 10; 32; 4; 65; 1; 118; 34; 13; 32; 10; 106; 34; 11; 32; 11; 65; 2; 116; 65;
  212; 131; 198; 128; 0; 106; 40; 2; 0; 32; 14; 75; 27; 33; 10; 32; 4; 32; 13; 107; 34; 4; 65; 1; 75; 13; 0;
  11; 32; 10; 65; 2; 116; 65; 212; 131; 198; 128; 0; 106; 40; 2; 0; 32; 14; 71; 13; 55; 32; 10; 65; 224; 0;
  79; 13; 19; 32; 10; 65; 2; 116; 65; 204; 243; 197; 128; 0; 106; 40; 2; 0; 33; 14; 12; 5; 11; 65; 1; 33;
  10; 32; 6; 65; 48; 106; 32; 3; 32; 4; 65; 1; 16; 133; 128; 128; 128; 0; 32; 6; 40; 2; 48; 34; 4; 65; 175;
  180; 131; 227; 120; 75; 65; 2; 116; 34; 13; 65; 212; 137; 198; 128; 0; 106; 40; 2; 0; 32; 4; 71; 13; 57;
  32; 6; 40; 2; 52; 33; 3; 32; 13; 65; 204; 246; 197; 128; 0; 106; 40; 2; 0; 33; 14; 12; 4; 11; 32; 6; 65;
  56; 106; 32; 3; 32; 4; 65; 1; 16; 133; 128; 128; 128; 0; 65; 0; 33; 10; 65; 11; 33; 4; 32; 6; 40; 2; 60;
  33; 3; 32; 6; 40; 2; 56; 33; 14; 3; 64; 32; 10; 32; 4; 65; 1; 118; 34; 13; 32; 10; 106; 34; 11; 32; 11;
  65; 2; 116; 65; 228; 137; 198; 128; 0; 106; 40; 2; 0; 32; 14; 75; 27; 33; 10; 32; 4; 32; 13; 107; 34; 4;
  65; 1; 75; 13; 0; 11; 32; 10; 65; 2; 116; 65; 228; 137; 198; 128; 0; 106; 40; 2; 0; 32; 14; 71; 13; 53;
  32; 10; 65; 11; 79; 13; 18; 32; 10; 65; 2; 116; 65; 212; 246; 197; 128; 0; 106; 40; 2; 0; 33; 14; 12; 3;
  11; 65; 1; 33; 12; 32; 6; 65; 192; 0; 106; 32; 3; 32; 4; 65; 1; 16; 133; 128; 128; 128; 0; 32; 6; 40; 2;
  64; 65; 187; 237; 168; 214; 1; 71; 13; 22; 65; 199; 11; 33; 14; 32; 6; 40; 2; 68; 33; 3; 12; 35; 11; 65;
  208; 11; 33; 14; 32; 6; 40; 2; 76; 33; 3; 12; 34; 11; 32; 6; 65; 200; 2; 106; 40; 2; 0; 33; 3; 32; 6; 40;
  2; 196; 2; 33; 14; 11; 65; 1; 33; 12; 12; 26; 11; 2; 64; 2; 64; 2; 64; 2; 64; 2; 64; 2; 64; 2; 64; 32; 3;
  44; 0; 0; 34; 10; 65; 127; 74; 13; 0; 65; 0; 33; 11; 32; 3; 32; 4; 106; 34; 12; 33; 13; 2; 64; 32; 4; 65;
  1; 70; 13; 0; 32; 3; 65; 2; 106; 33; 13; 32; 3; 45; 0; 1; 65; 63; 113; 33; 11; 11; 32; 10; 65; 31; 113;
  33; 14; 2; 64; 2; 64; 32; 10; 65; 255; 1; 113; 65; 224; 1; 79; 13; 0; 32; 11; 32; 14; 65; 6; 116; 114; 33;
  10; 12; 1; 11; 2; 64; 2; 64; 32; 13; 32; 12; 71; 13; 0; 65; 0; 33; 13; 32; 12; 33; 15; 12; 1; 11; 32; 13;
  65; 1; 106; 33; 15; 32; 13; 45; 0; 0; 65; 63; 113; 33; 13; 11; 32; 13; 32; 11; 65; 6; 116; 114; 33; 13; 2;
  64; 32; 10; 65; 255; 1; 113; 65; 240; 1; 79; 13; 0; 32; 13; 32; 14; 65; 12; 116; 114; 33; 10; 12; 1; 11;
  2; 64; 2; 64; 32; 15; 32; 12; 71; 13; 0; 65; 0; 33; 10; 12; 1; 11; 32; 15; 45; 0; 0; 65; 63; 113; 33; 10;
  11; 32; 13; 65; 6; 116; 32; 14; 65; 18; 116; 65; 128; 128; 240; 0; 113; 114; 32; 10; 114; 34; 10; 65; 128;
  128; 196; 0; 70; 13; 56; 11; 32; 10; 65; 128; 1; 73; 13; 0; 32; 10; 65; 128; 2; 73; 13; 1; 32; 10; 65;
  128; 3; 73; 13; 2; 32; 10; 65; 128; 64; 106; 65; 240; 0; 73; 13; 3; 32; 10; 65; 224; 190; 127; 106; 65;
  48; 73; 13; 4; 32; 10; 65; 240; 255; 255; 0; 113; 65; 240; 255; 3; 71; 13; 55; 65; 1; 33; 10; 32; 6; 65;
  240; 0; 106; 32; 3; 32; 4; 65; 1; 16; 133; 128; 128; 128; 0; 32; 6; 40; 2; 112; 65; 181; 180; 151; 197; 5;
  71; 13; 58; 65; 2; 33; 12; 65; 247; 10; 33; 14; 32; 6; 40; 2; 116; 33; 3; 12; 34; 11; 32; 6; 65; 192; 2;
  106; 32; 3; 32; 4; 65; 2; 16; 158; 128; 128; 128; 0; 32; 6; 40; 2; 192; 2; 65; 1; 70; 13; 4; 32; 6; 65;
  208; 2; 106; 32; 3; 32; 4; 65; 1; 16; 158; 128; 128; 128; 0; 32; 6; 40; 2; 208; 2; 65; 1; 71; 13; 54; 32;
  6; 65; 216; 2; 106; 40; 2; 0; 33; 3; 32; 6; 40; 2; 212; 2; 33; 14; 12; 5; 11; 32; 6; 65; 208; 0; 106; 32;
  3; 32; 4; 65; 1; 16; 133; 128; 128; 128; 0; 65; 0; 33; 10; 65; 224; 0; 33; 4; 32; 6; 40; 2; 84; 33; 3; 32;
  6; 40; 2; 80; 33; 14; 3; 64; 32; 10; 32; 4; 65; 1; 118; 34; 13; 32; 10; 106; 34; 11; 32; 11; 65; 2; 116;
  65; 212; 131; 198; 128; 0; 106; 40; 2; 0; 32; 14; 75; 27; 33; 10; 32; 4; 32; 13; 107; 34; 4; 65; 1; 75;
  13; 0; 11; 32; 10; 65; 2; 116; 65; 212; 131; 198; 128; 0; 106; 40; 2; 0; 32; 14; 71; 13; 53; 32; 10; 65;
  224; 0; 79; 13; 19; 65; 2; 33; 12; 32; 10; 65; 2; 116; 65; 212; 134; 198; 128; 0; 106; 40; 2; 0; 33; 14;
  12; 31; 11; 65; 1; 33; 10; 32; 6; 65; 216; 0; 106; 32; 3; 32; 4; 65; 1; 16; 133; 128; 128; 128; 0; 65; 2;
  33; 12; 32; 6; 40; 2; 88; 34; 4; 65; 175; 180; 131; 227; 120; 75; 65; 2; 116; 34; 13; 65; 212; 137; 198;
  128; 0; 106; 40; 2; 0; 32; 4; 71; 13; 55; 32; 6; 40; 2; 92; 33; 3; 32; 13; 65; 220; 137; 198; 128; 0; 106;
  40; 2; 0; 33; 14; 12; 30; 11; 32; 6; 65; 224; 0; 106; 32; 3; 32; 4; 65; 1; 16; 133; 128; 128; 128; 0; 65;
  0; 33; 10; 65; 11; 33; 4; 32; 6; 40; 2; 100; 33; 3; 32; 6; 40; 2; 96; 33; 14; 3; 64; 32; 10; 32; 4; 65; 1;
  118; 34; 13; 32; 10; 106; 34; 11; 32; 11; 65; 2; 116; 65; 228; 137; 198; 128; 0; 106; 40; 2; 0; 32; 14;
  75; 27; 33; 10; 32; 4; 32; 13; 107; 34; 4; 65; 1; 75; 13; 0; 11; 32; 10; 65; 2; 116; 65; 228; 137; 198;
  128; 0; 106; 40; 2; 0; 32; 14; 71; 13; 51; 32; 10; 65; 11; 79; 13; 18; 65; 2; 33; 12; 32; 10; 65; 2; 116;
  65; 144; 138; 198; 128; 0; 106; 40; 2; 0; 33; 14; 12; 29; 11; 65; 1; 33; 10; 32; 6; 65; 232; 0; 106; 32;
  3; 32; 4; 65; 1; 16; 133; 128; 128; 128; 0; 32; 6; 40; 2; 104; 65; 187; 237; 168; 214; 1; 71; 13; 53; 65;
  2; 33; 12; 65; 238; 10; 33; 14; 32; 6; 40; 2; 108; 33; 3; 12; 29; 11; 32; 6; 65; 200; 2; 106; 40; 2; 0;
  33; 3; 32; 6; 40; 2; 196; 2; 33; 14; 11; 65; 2; 33; 12; 12; 26; 11; 2; 64; 2; 64; 2; 64; 2; 64; 2; 64; 2;
  64; 2; 64; 32; 3; 44; 0; 0; 34; 10; 65; 127; 74; 13; 0; 65; 0; 33; 11; 32; 3; 32; 4; 106; 34; 12; 33; 13;
  2; 64; 32; 4; 65; 1; 70; 13; 0; 32; 3; 65; 2; 106; 33; 13; 32; 3; 45; 0; 1; 65; 63; 113; 33; 11; 11; 32;
  10; 65; 31; 113; 33; 14; 2; 64; 2; 64; 32; 10; 65; 255; 1; 113; 65; 224; 1; 79; 13; 0; 32; 11; 32; 14; 65;
  6; 116; 114; 33; 10; 12; 1; 11; 2; 64; 2; 64; 32; 13; 32; 12; 71; 13; 0; 65; 0; 33; 13; 32; 12; 33; 15;
  12; 1; 11; 32; 13; 65; 1; 106; 33; 15; 32; 13; 45; 0; 0; 65; 63; 113; 33; 13; 11; 32; 13; 32; 11; 65; 6;
  116; 114; 33; 13; 2; 64; 32; 10; 65; 255; 1; 113; 65; 240; 1; 79; 13; 0; 32; 13; 32; 14; 65; 12; 116; 114;
  33; 10; 12; 1; 11; 2; 64; 2; 64; 32; 15; 32; 12; 71; 13; 0; 65; 0; 33; 10; 12; 1; 11; 32; 15; 45; 0; 0;
  65; 63; 113; 33; 10; 11; 32; 13; 65; 6; 116; 32; 14; 65; 18; 116; 65; 128; 128; 240; 0; 113; 114; 32; 10;
  114; 34; 10; 65; 128; 128; 196; 0; 70; 13; 55; 11; 32; 10; 65; 128; 1; 73; 13; 0; 32; 10; 65; 128; 2; 73;
  13; 1; 32; 10; 65; 128; 3; 73; 13; 2; 32; 10; 65; 128; 64; 106; 65; 240; 0; 73; 13; 3; 32; 10; 65; 224;
  190; 127; 106; 65; 48; 73; 13; 4; 32; 10; 65; 240; 255; 255; 0; 113; 65; 240; 255; 3; 71; 13; 54; 65; 1;
  33; 10; 32; 6; 65; 152; 1; 106; 32; 3; 32; 4; 65; 1; 16; 133; 128; 128; 128; 0; 32; 6; 40; 2; 152; 1; 65;
  181; 180; 151; 197; 5; 71; 13; 57; 65; 3; 33; 12; 65; 162; 8; 33; 14; 32; 6; 40; 2; 156; 1; 33; 3; 12; 35;
  11; 32; 6; 65; 192; 2; 106; 32; 3; 32; 4; 65; 2; 16; 159; 128; 128; 128; 0; 32; 6; 40; 2; 192; 2; 65; 1;
  70; 13; 4; 32; 6; 65; 208; 2; 106; 32; 3; 32; 4; 65; 1; 16; 159; 128; 128; 128; 0; 32; 6; 40; 2; 208; 2;
  65; 1; 71; 13; 53; 32; 6; 65; 216; 2; 106; 40; 2; 0; 33; 3; 32; 6; 40; 2; 212; 2; 33; 14; 12; 5; 11; 32;
  6; 65; 248; 0; 106; 32; 3; 32; 4; 65; 1; 16; 133; 128; 128; 128; 0; 65; 0; 33; 10; 65; 224; 0; 33; 4; 32;
  6; 40; 2; 124; 33; 3; 32; 6; 40; 2; 120; 33; 14; 3; 64; 32; 10; 32; 4; 65; 1; 118; 34; 13; 32; 10; 106;
  34; 11; 32; 11; 65; 2; 116; 65; 212; 131; 198; 128; 0; 106; 40; 2; 0; 32; 14; 75; 27; 33; 10; 32; 4; 32;
  13; 107; 34; 4; 65; 1; 75; 13; 0; 11; 32; 10; 65; 2; 116; 65; 212; 131; 198; 128; 0; 106; 40; 2; 0; 32;
  14; 71; 13; 52; 32; 10; 65; 224; 0; 79; 13; 20; 32; 10; 65; 2; 116; 65; 208; 251; 197; 128; 0; 106; 40; 2;
  0; 33; 14; 12; 4; 11; 65; 1; 33; 10; 32; 6; 65; 128; 1; 106; 32; 3; 32; 4; 65; 1; 16; 133; 128; 128; 128;
  0; 32; 6; 40; 2; 128; 1; 34; 4; 65; 175; 180; 131; 227; 120; 75; 65; 2; 116; 34; 13; 65; 212; 137; 198;
  128; 0; 106; 40; 2; 0; 32; 4; 71; 13; 54; 32; 6; 40; 2; 132; 1; 33; 3; 32; 13; 65; 208; 254; 197; 128; 0;
  106; 40; 2; 0; 33; 14; 12; 3; 11; 32; 6; 65; 136; 1; 106; 32; 3; 32; 4; 65; 1; 16; 133; 128; 128; 128; 0;
  65; 0; 33; 10; 65; 11; 33; 4; 32; 6; 40; 2; 140; 1; 33; 3; 32; 6; 40; 2; 136; 1; 33; 14; 3; 64; 32; 10;
  32; 4; 65; 1; 118; 34; 13; 32; 10; 106; 34; 11; 32; 11; 65; 2; 116; 65; 228; 137; 198; 128; 0; 106; 40; 2;
  0; 32; 14; 75; 27; 33; 10; 32; 4; 32; 13; 107; 34; 4; 65; 1; 75; 13; 0; 11; 32; 10; 65; 2; 116; 65; 228;
  137; 198; 128; 0; 106; 40; 2; 0; 32; 14; 71; 13; 50; 32; 10; 65; 11; 79; 13; 19; 32; 10; 65; 2; 116; 65;
  216; 254; 197; 128; 0; 106; 40; 2; 0; 33; 14; 12; 2; 11; 65; 1; 33; 10; 32; 6; 65; 144; 1; 106; 32; 3; 32;
  4; 65; 1; 16; 133; 128; 128; 128; 0; 32; 6; 40; 2; 144; 1; 65; 187; 237; 168; 214; 1; 71; 13; 52; 65; 3;
  33; 12; 65; 155; 8; 33; 14; 32; 6; 40; 2; 148; 1; 33; 3; 12; 30; 11; 32; 6; 65; 200; 2; 106; 40; 2; 0; 33;
  3; 32; 6; 40; 2; 196; 2; 33; 14; 11; 65; 3; 33; 12; 12; 27; 11; 32; 6; 65; 248; 1; 106; 40; 2; 0; 33; 3;
  65; 0; 33; 12; 32; 6; 40; 2; 244; 1; 33; 14; 12; 22; 11; 32; 6; 65; 168; 2; 106; 40; 2; 0; 33; 3; 12; 16;
  11; 32; 6; 65; 184; 2; 106; 40; 2; 0; 33; 3; 12; 18; 11; 32; 6; 65; 168; 2; 106; 40; 2; 0; 33; 3; 12; 14;
  11; 32; 6; 65; 184; 2; 106; 40; 2; 0; 33; 3; 12; 16; 11; 32; 10; 65; 12; 16; 134; 128; 128; 128; 0; 0; 11;
  32; 6; 65; 136; 2; 106; 40; 2; 0; 33; 3; 12; 13; 11; 32; 6; 65; 152; 2; 106; 40; 2; 0; 33; 3; 12; 11; 11;
  32; 6; 65; 168; 2; 106; 40; 2; 0; 33; 3; 12; 9; 11; 32; 6; 65; 184; 2; 106; 40; 2; 0; 33; 3; 12; 11; 11;
  32; 10; 65; 57; 16; 134; 128; 128; 128; 0; 0; 11; 32; 10; 65; 224; 0; 16; 134; 128; 128; 128; 0; 0; 11;
  32; 10; 65; 11; 16; 134; 128; 128; 128; 0; 0; 11; 32; 10; 65; 224; 0; 16; 134; 128; 128; 128; 0; 0; 11;
  32; 10; 65; 11; 16; 134; 128; 128; 128; 0; 0; 11; 32; 10; 65; 224; 0; 16; 134; 128; 128; 128; 0; 0; 11;
  32; 10; 65; 11; 16; 134; 128; 128; 128; 0; 0; 11; 65; 1; 33; 10; 12; 32; 11; 65; 0; 33; 12; 32; 6; 40; 2;
  164; 2; 33; 14; 12; 4; 11; 65; 0; 33; 12; 32; 6; 40; 2; 148; 2; 33; 14; 12; 3; 11; 65; 0; 33; 12; 32; 6;
  40; 2; 132; 2; 33; 14; 12; 2; 11; 65; 0; 33; 12; 32; 6; 40; 2; 180; 2; 33; 14; 12; 1; 11; 65; 0; 33; 12;
  32; 6; 40; 2; 196; 2; 33; 14; 11; 32; 12; 65; 5; 70; 13; 23; 32; 12; 14; 5; 7; 0; 1; 3; 10; 7; 11; 32; 14;
  65; 220; 11; 77; 13; 5; 32; 14; 65; 221; 11; 16; 134; 128; 128; 128; 0; 0; 11; 32; 14; 65; 131; 11; 77;
  13; 0; 32; 14; 65; 132; 11; 16; 134; 128; 128; 128; 0; 0; 11; 32; 14; 65; 2; 116; 65; 192; 229; 220; 128;
  0; 106; 33; 10; 12; 8; 11; 32; 14; 65; 174; 8; 75; 13; 1; 11; 32; 14; 65; 2; 116; 65; 208; 145; 221; 128;
  0; 106; 33; 10; 12; 6; 11; 32; 14; 65; 175; 8; 16; 134; 128; 128; 128; 0; 0; 11; 32; 14; 65; 2; 116; 65;
  204; 182; 220; 128; 0; 106; 33; 10; 12; 4; 11; 32; 14; 65; 219; 200; 5; 77; 13; 0; 32; 14; 65; 220; 200;
  5; 16; 134; 128; 128; 128; 0; 0; 11; 32; 14; 65; 2; 116; 65; 220; 147; 198; 128; 0; 106; 33; 10; 12; 2;
  11; 2; 64; 2; 64; 2; 64; 2; 64; 2; 64; 2; 64; 2; 64; 2; 64; 32; 10; 65; 192; 255; 255; 0; 113; 65; 128;
  224; 0; 70; 13; 0; 32; 10; 65; 128; 152; 127; 106; 65; 192; 51; 73; 13; 1; 32; 10; 65; 128; 228; 126; 106;
  65; 128; 164; 1; 73; 13; 2; 32; 10; 65; 128; 130; 124; 106; 65; 240; 1; 73; 13; 3; 32; 10; 65; 128; 128;
  120; 106; 65; 224; 205; 2; 73; 13; 4; 32; 10; 65; 128; 178; 117; 106; 65; 192; 32; 73; 13; 5; 32; 10; 65;
  192; 145; 117; 106; 65; 224; 1; 73; 13; 6; 32; 10; 65; 224; 143; 117; 106; 65; 144; 45; 79; 13; 21; 32; 6;
  65; 216; 1; 106; 32; 3; 32; 4; 65; 1; 16; 133; 128; 128; 128; 0; 65; 0; 33; 10; 65; 236; 0; 33; 4; 32; 6;
  40; 2; 220; 1; 33; 3; 32; 6; 40; 2; 216; 1; 33; 14; 3; 64; 32; 10; 32; 4; 65; 1; 118; 34; 13; 32; 10; 106;
  34; 11; 32; 11; 65; 2; 116; 65; 236; 236; 197; 128; 0; 106; 40; 2; 0; 32; 14; 75; 27; 33; 10; 32; 4; 32;
  13; 107; 34; 4; 65; 1; 75; 13; 0; 11; 32; 10; 65; 2; 116; 65; 236; 236; 197; 128; 0; 106; 40; 2; 0; 32;
  14; 71; 13; 21; 32; 10; 65; 236; 0; 79; 13; 20; 32; 10; 65; 2; 116; 65; 156; 240; 197; 128; 0; 106; 40; 2;
  0; 33; 14; 12; 7; 11; 32; 6; 65; 160; 1; 106; 32; 3; 32; 4; 65; 1; 16; 133; 128; 128; 128; 0; 65; 0; 33;
  10; 65; 32; 33; 4; 32; 6; 40; 2; 164; 1; 33; 3; 32; 6; 40; 2; 160; 1; 33; 14; 3; 64; 32; 10; 32; 4; 65; 1;
  118; 34; 13; 32; 10; 106; 34; 11; 32; 11; 65; 2; 116; 65; 132; 232; 193; 128; 0; 106; 40; 2; 0; 32; 14;
  75; 27; 33; 10; 32; 4; 32; 13; 107; 34; 4; 65; 1; 75; 13; 0; 11; 32; 10; 65; 2; 116; 65; 132; 232; 193;
  128; 0; 106; 40; 2; 0; 32; 14; 71; 13; 20; 32; 10; 65; 32; 79; 13; 12; 32; 10; 65; 2; 116; 65; 132; 233;
  193; 128; 0; 106; 40; 2; 0; 33; 14; 12; 6; 11; 32; 6; 65; 168; 1; 106; 32; 3; 32; 4; 65; 1; 16; 133; 128;
  128; 128; 0; 65; 0; 33; 10; 65; 209; 0; 33; 4; 32; 6; 40; 2; 172; 1; 33; 3; 32; 6; 40; 2; 168; 1; 33; 14;
  3; 64; 32; 10; 32; 4; 65; 1; 118; 34; 13; 32; 10; 106; 34; 11; 32; 11; 65; 2; 116; 65; 132; 234; 193; 128;
  0; 106; 40; 2; 0; 32; 14; 75; 27; 33; 10; 32; 4; 32; 13; 107; 34; 4; 65; 1; 75; 13; 0; 11; 32; 10; 65; 2;
  116; 65; 132; 234; 193; 128; 0; 106; 40; 2; 0; 32; 14; 71; 13; 19; 32; 10; 65; 209; 0; 79; 13; 12; 32; 10;
  65; 2; 116; 65; 200; 236; 193; 128; 0; 106; 40; 2; 0; 33; 14; 12; 5; 11; 32; 6; 65; 176; 1; 106; 32; 3;
  32; 4; 65; 1; 16; 133; 128; 128; 128; 0; 65; 0; 33; 10; 65; 164; 62; 33; 4; 32; 6; 40; 2; 180; 1; 33; 3;
  32; 6; 40; 2; 176; 1; 33; 14; 3; 64; 32; 10; 32; 4; 65; 1; 118; 34; 13; 32; 10; 106; 34; 11; 32; 11; 65;
  2; 116; 65; 140; 239; 193; 128; 0; 106; 40; 2; 0; 32; 14; 75; 27; 33; 10; 32; 4; 32; 13; 107; 34; 4; 65;
  1; 75; 13; 0; 11; 32; 10; 65; 2; 116; 65; 140; 239; 193; 128; 0; 106; 40; 2; 0; 32; 14; 71; 13; 18; 32;
  10; 65; 164; 62; 79; 13; 12; 32; 10; 65; 2; 116; 65; 156; 232; 195; 128; 0; 106; 40; 2; 0; 33; 14; 12; 4;
  11; 32; 6; 65; 184; 1; 106; 32; 3; 32; 4; 65; 1; 16; 133; 128; 128; 128; 0; 65; 0; 33; 10; 65; 224; 0; 33;
  4; 32; 6; 40; 2; 188; 1; 33; 3; 32; 6; 40; 2; 184; 1; 33; 14; 3; 64; 32; 10; 32; 4; 65; 1; 118; 34; 13;
  32; 10; 106; 34; 11; 32; 11; 65; 2; 116; 65; 172; 225; 197; 128; 0; 106; 40; 2; 0; 32; 14; 75; 27; 33; 10;
  32; 4; 32; 13; 107; 34; 4; 65; 1; 75; 13; 0; 11; 32; 10; 65; 2; 116; 65; 172; 225; 197; 128; 0; 106; 40;
  2; 0; 32; 14; 71; 13; 17; 32; 10; 65; 224; 0; 79; 13; 12; 32; 10; 65; 2; 116; 65; 172; 228; 197; 128; 0;
  106; 40; 2; 0; 33; 14; 12; 3; 11; 32; 6; 65; 192; 1; 106; 32; 3; 32; 4; 65; 1; 16; 133; 128; 128; 128; 0;
  65; 0; 33; 10; 65; 36; 33; 4; 32; 6; 40; 2; 196; 1; 33; 3; 32; 6; 40; 2; 192; 1; 33; 14; 3; 64; 32; 10;
  32; 4; 65; 1; 118; 34; 13; 32; 10; 106; 34; 11; 32; 11; 65; 2; 116; 65; 172; 231; 197; 128; 0; 106; 40; 2;
  0; 32; 14; 75; 27; 33; 10; 32; 4; 32; 13; 107; 34; 4; 65; 1; 75; 13; 0; 11; 32; 10; 65; 2; 116; 65; 172;
  231; 197; 128; 0; 106; 40; 2; 0; 32; 14; 71; 13; 16; 32; 10; 65; 36; 79; 13; 12; 32; 10; 65; 2; 116; 65;
  188; 232; 197; 128; 0; 106; 40; 2; 0; 33; 14; 12; 2; 11; 32; 6; 65; 200; 1; 106; 32; 3; 32; 4; 65; 1; 16;
  133; 128; 128; 128; 0; 65; 0; 33; 10; 65; 44; 33; 4; 32; 6; 40; 2; 204; 1; 33; 3; 32; 6; 40; 2; 200; 1;
  33; 14; 3; 64; 32; 10; 32; 4; 65; 1; 118; 34; 13; 32; 10; 106; 34; 11; 32; 11; 65; 2; 116; 65; 204; 233;
  197; 128; 0; 106; 40; 2; 0; 32; 14; 75; 27; 33; 10; 32; 4; 32; 13; 107; 34; 4; 65; 1; 75; 13; 0; 11; 32;
  10; 65; 2; 116; 65; 204; 233; 197; 128; 0; 106; 40; 2; 0; 32; 14; 71; 13; 15; 32; 10; 65; 44; 79; 13; 12;
  32; 10; 65; 2; 116; 65; 252; 234; 197; 128; 0; 106; 40; 2; 0; 33; 14; 12; 1; 11; 32; 6; 65; 208; 1; 106;
  32; 3; 32; 4; 65; 1; 16; 133; 128; 128; 128; 0; 65; 0; 33; 10; 65; 8; 33; 4; 32; 6; 40; 2; 212; 1; 33; 3;
  32; 6; 40; 2; 208; 1; 33; 14; 3; 64; 32; 10; 32; 4; 65; 1; 118; 34; 13; 32; 10; 106; 34; 11; 32; 11; 65;
  2; 116; 65; 172; 236; 197; 128; 0; 106; 40; 2; 0; 32; 14; 75; 27; 33; 10; 32; 4; 32; 13; 107; 34; 4; 65;
  1; 75; 13; 0; 11; 32; 10; 65; 2; 116; 65; 172; 236; 197; 128; 0; 106; 40; 2; 0; 32; 14; 71; 13; 14; 32;
  10; 65; 8; 79; 13; 12; 32; 10; 65; 2; 116; 65; 204; 236; 197; 128; 0; 106; 40; 2; 0; 33; 14; 11; 65; 4;
  33; 12; 11; 32; 14; 65; 217; 239; 16; 79; 13; 1; 32; 14; 65; 2; 116; 65; 140; 179; 221; 128; 0; 106; 33;
  10; 11; 32; 10; 40; 2; 0; 34; 4; 65; 16; 118; 34; 16; 65; 255; 1; 113; 34; 11; 65; 32; 75; 13; 12; 2; 64;
  32; 2; 40; 2; 0; 34; 10; 32; 9; 79; 13; 0; 32; 2; 32; 9; 54; 2; 0; 32; 9; 33; 10; 11; 32; 4; 65; 255; 1;
  113; 33; 15; 32; 11; 32; 10; 65; 1; 106; 34; 13; 106; 65; 2; 106; 32; 8; 79; 13; 1; 32; 2; 40; 2; 4; 33;
  8; 32; 10; 33; 9; 12; 2; 11; 32; 14; 65; 217; 239; 16; 16; 134; 128; 128; 128; 0; 0; 11; 32; 2; 32; 9; 54;
  2; 0; 2; 64; 32; 2; 40; 2; 8; 34; 10; 65; 23; 75; 13; 0; 65; 24; 33; 10; 32; 2; 65; 24; 54; 2; 8; 11; 32;
  2; 65; 0; 54; 2; 8; 32; 2; 32; 10; 32; 2; 40; 2; 4; 106; 65; 1; 106; 34; 8; 54; 2; 4; 32; 9; 65; 1; 106;
  33; 13; 11; 32; 7; 32; 15; 32; 8; 106; 34; 10; 73; 13; 9; 2; 64; 2; 64; 2; 64; 32; 7; 32; 10; 107; 32; 4;
  65; 8; 118; 65; 255; 1; 113; 34; 4; 32; 4; 32; 10; 106; 34; 15; 32; 7; 75; 27; 69; 13; 0; 32; 10; 65; 44;
  108; 34; 8; 32; 13; 65; 5; 118; 34; 9; 65; 2; 116; 106; 65; 224; 244; 160; 129; 0; 106; 33; 4; 32; 8; 32;
  13; 32; 11; 106; 65; 5; 118; 34; 17; 65; 2; 116; 106; 65; 224; 244; 160; 129; 0; 106; 33; 8; 32; 7; 32;
  15; 32; 7; 32; 15; 73; 27; 33; 15; 65; 32; 32; 13; 65; 31; 113; 34; 18; 107; 34; 19; 65; 31; 113; 33; 20;
  32; 9; 32; 10; 65; 11; 108; 34; 7; 106; 33; 13; 32; 17; 32; 7; 106; 33; 9; 65; 0; 33; 7; 65; 0; 32; 16;
  107; 65; 31; 113; 33; 21; 32; 1; 40; 2; 4; 33; 17; 3; 64; 2; 64; 32; 10; 32; 17; 73; 13; 0; 32; 12; 32;
  14; 32; 7; 65; 5; 118; 34; 22; 65; 1; 106; 16; 160; 128; 128; 128; 0; 32; 7; 65; 31; 113; 34; 23; 116; 32;
  21; 118; 33; 1; 2; 64; 65; 32; 32; 23; 107; 34; 23; 32; 11; 79; 13; 0; 32; 12; 32; 14; 32; 22; 65; 2; 106;
  16; 160; 128; 128; 128; 0; 32; 23; 32; 16; 107; 65; 31; 113; 118; 32; 1; 114; 33; 1; 11; 32; 13; 65; 135;
  46; 75; 13; 3; 32; 4; 32; 4; 40; 2; 0; 32; 1; 32; 18; 116; 115; 54; 2; 0; 32; 19; 32; 11; 79; 13; 0; 32;
  9; 65; 135; 46; 75; 13; 4; 32; 8; 32; 8; 40; 2; 0; 32; 1; 32; 20; 118; 115; 54; 2; 0; 11; 32; 4; 65; 44;
  106; 33; 4; 32; 13; 65; 11; 106; 33; 13; 32; 8; 65; 44; 106; 33; 8; 32; 9; 65; 11; 106; 33; 9; 32; 7; 32;
  11; 106; 33; 7; 32; 15; 32; 10; 65; 1; 106; 34; 10; 71; 13; 0; 11; 32; 2; 40; 2; 0; 33; 9; 11; 32; 2; 32;
  11; 32; 9; 106; 65; 3; 106; 54; 2; 0; 65; 32; 33; 1; 2; 64; 2; 64; 2; 64; 32; 5; 65; 255; 1; 113; 14; 5;
  2; 0; 0; 1; 2; 2; 11; 65; 30; 33; 1; 12; 1; 11; 65; 24; 33; 1; 11; 32; 1; 32; 2; 40; 2; 8; 77; 13; 12; 32;
  2; 32; 1; 54; 2; 8; 12; 12; 11; 32; 13; 65; 136; 46; 16; 134; 128; 128; 128; 0; 0; 11; 32; 9; 65; 136; 46;
  16; 134; 128; 128; 128; 0; 0; 11; 32; 10; 65; 32; 16; 134; 128; 128; 128; 0; 0; 11; 32; 10; 65; 209; 0;
  16; 134; 128; 128; 128; 0; 0; 11; 32; 10; 65; 164; 62; 16; 134; 128; 128; 128; 0; 0; 11; 32; 10; 65; 224;
  0; 16; 134; 128; 128; 128; 0; 0; 11; 32; 10; 65; 36; 16; 134; 128; 128; 128; 0; 0; 11; 32; 10; 65; 44; 16;
  134; 128; 128; 128; 0; 0; 11; 32; 10; 65; 8; 16; 134; 128; 128; 128; 0; 0; 11; 32; 10; 65; 236; 0; 16;
  134; 128; 128; 128; 0; 0; 11; 65; 1; 33; 10; 12; 2; 11; 65; 0; 33; 3; 11; 65; 0; 33; 10; 11; 32; 0; 32; 3;
  54; 2; 4; 32; 0; 32; 10; 54; 2; 0; 32; 6; 65; 224; 2; 106; 36; 128; 128; 128; 128; 0; 11; 234; 2; 1; 2;
  127; 2; 64; 2; 64; 32; 2; 32; 1; 75; 13; 0; 32; 3; 32; 1; 75; 13; 0; 32; 2; 32; 3; 75; 13; 0; 2; 64; 2;
  64; 32; 2; 69; 13; 0; 32; 1; 32; 2; 70; 13; 0; 32; 1; 32; 2; 77; 13; 1; 32; 0; 32; 2; 106; 44; 0; 0; 65;
  64; 72; 13; 1; 11; 32; 3; 33; 2; 11; 32; 2; 32; 1; 70; 13; 1; 32; 1; 65; 1; 106; 33; 4; 2; 64; 3; 64; 2;
  64; 32; 2; 32; 1; 79; 13; 0; 32; 0; 32; 2; 106; 44; 0; 0; 65; 64; 72; 13; 0; 32; 2; 33; 3; 12; 2; 11; 32;
  2; 65; 127; 106; 33; 3; 32; 2; 65; 1; 70; 13; 1; 32; 4; 32; 2; 70; 33; 5; 32; 3; 33; 2; 32; 5; 69; 13; 0;
  11; 11; 32; 3; 32; 1; 70; 13; 1; 32; 0; 32; 3; 106; 34; 2; 44; 0; 0; 34; 3; 65; 127; 74; 13; 0; 65; 0; 33;
  4; 32; 0; 32; 1; 106; 34; 1; 33; 0; 2; 64; 32; 2; 65; 1; 106; 32; 1; 70; 13; 0; 32; 2; 65; 2; 106; 33; 0;
  32; 2; 45; 0; 1; 65; 63; 113; 65; 6; 116; 33; 4; 11; 32; 3; 65; 255; 1; 113; 65; 224; 1; 73; 13; 0; 65; 0;
  33; 5; 32; 1; 33; 2; 2; 64; 32; 0; 32; 1; 70; 13; 0; 32; 0; 65; 1; 106; 33; 2; 32; 0; 45; 0; 0; 65; 63;
  113; 33; 5; 11; 32; 3; 65; 255; 1; 113; 65; 240; 1; 73; 13; 0; 32; 3; 65; 255; 1; 113; 33; 0; 32; 5; 32;
  4; 114; 33; 4; 65; 0; 33; 3; 2; 64; 32; 2; 32; 1; 70; 13; 0; 32; 2; 45; 0; 0; 65; 63; 113; 33; 3; 11; 32;
  4; 65; 6; 116; 32; 0; 65; 18; 116; 65; 128; 128; 240; 0; 113; 114; 32; 3; 114; 65; 128; 128; 196; 0; 70;
  13; 1; 11; 16; 162; 128; 128; 128; 0; 0; 11; 16; 161; 128; 128; 128; 0; 0; 11; 218; 1; 1; 4; 127; 35; 128;
  128; 128; 128; 0; 65; 16; 107; 34; 4; 36; 128; 128; 128; 128; 0; 32; 4; 65; 8; 106; 32; 1; 32; 2; 32; 3;
  16; 133; 128; 128; 128; 0; 65; 0; 33; 1; 65; 148; 1; 33; 2; 32; 4; 40; 2; 12; 33; 5; 32; 4; 40; 2; 8; 33;
  6; 3; 64; 32; 1; 32; 2; 65; 1; 118; 34; 3; 32; 1; 106; 34; 7; 32; 7; 65; 2; 116; 65; 188; 138; 198; 128;
  0; 106; 40; 2; 0; 32; 6; 75; 27; 33; 1; 32; 2; 32; 3; 107; 34; 2; 65; 1; 75; 13; 0; 11; 2; 64; 2; 64; 2;
  64; 32; 1; 65; 2; 116; 65; 188; 138; 198; 128; 0; 106; 40; 2; 0; 32; 6; 70; 13; 0; 32; 0; 65; 0; 54; 2; 0;
  12; 1; 11; 32; 1; 65; 147; 1; 75; 13; 1; 32; 0; 65; 1; 54; 2; 0; 32; 0; 65; 8; 106; 32; 5; 54; 2; 0; 32;
  0; 32; 1; 65; 2; 116; 65; 128; 247; 197; 128; 0; 106; 40; 2; 0; 54; 2; 4; 11; 32; 4; 65; 16; 106; 36; 128;
  128; 128; 128; 0; 15; 11; 32; 1; 65; 148; 1; 16; 134; 128; 128; 128; 0; 0; 11; 218; 1; 1; 4; 127; 35; 128;
  128; 128; 128; 0; 65; 16; 107; 34; 4; 36; 128; 128; 128; 128; 0; 32; 4; 65; 8; 106; 32; 1; 32; 2; 32; 3;
  16; 133; 128; 128; 128; 0; 65; 0; 33; 1; 65; 148; 1; 33; 2; 32; 4; 40; 2; 12; 33; 5; 32; 4; 40; 2; 8; 33;
  6; 3; 64; 32; 1; 32; 2; 65; 1; 118; 34; 3; 32; 1; 106; 34; 7; 32; 7; 65; 2; 116; 65; 188; 138; 198; 128;
  0; 106; 40; 2; 0; 32; 6; 75; 27; 33; 1; 32; 2; 32; 3; 107; 34; 2; 65; 1; 75; 13; 0; 11; 2; 64; 2; 64; 2;
  64; 32; 1; 65; 2; 116; 65; 188; 138; 198; 128; 0; 106; 40; 2; 0; 32; 6; 70; 13; 0; 32; 0; 65; 0; 54; 2; 0;
  12; 1; 11; 32; 1; 65; 147; 1; 75; 13; 1; 32; 0; 65; 1; 54; 2; 0; 32; 0; 65; 8; 106; 32; 5; 54; 2; 0; 32;
  0; 32; 1; 65; 2; 116; 65; 140; 143; 198; 128; 0; 106; 40; 2; 0; 54; 2; 4; 11; 32; 4; 65; 16; 106; 36; 128;
  128; 128; 128; 0; 15; 11; 32; 1; 65; 148; 1; 16; 134; 128; 128; 128; 0; 0; 11; 218; 1; 1; 4; 127; 35; 128;
  128; 128; 128; 0; 65; 16; 107; 34; 4; 36; 128; 128; 128; 128; 0; 32; 4; 65; 8; 106; 32; 1; 32; 2; 32; 3;
  16; 133; 128; 128; 128; 0; 65; 0; 33; 1; 65; 148; 1; 33; 2; 32; 4; 40; 2; 12; 33; 5; 32; 4; 40; 2; 8; 33;
  6; 3; 64; 32; 1; 32; 2; 65; 1; 118; 34; 3; 32; 1; 106; 34; 7; 32; 7; 65; 2; 116; 65; 188; 138; 198; 128;
  0; 106; 40; 2; 0; 32; 6; 75; 27; 33; 1; 32; 2; 32; 3; 107; 34; 2; 65; 1; 75; 13; 0; 11; 2; 64; 2; 64; 2;
  64; 32; 1; 65; 2; 116; 65; 188; 138; 198; 128; 0; 106; 40; 2; 0; 32; 6; 70; 13; 0; 32; 0; 65; 0; 54; 2; 0;
  12; 1; 11; 32; 1; 65; 147; 1; 75; 13; 1; 32; 0; 65; 1; 54; 2; 0; 32; 0; 65; 8; 106; 32; 5; 54; 2; 0; 32;
  0; 32; 1; 65; 2; 116; 65; 132; 255; 197; 128; 0; 106; 40; 2; 0; 54; 2; 4; 11; 32; 4; 65; 16; 106; 36; 128;
  128; 128; 128; 0; 15; 11; 32; 1; 65; 148; 1; 16; 134; 128; 128; 128; 0; 0; 11; 129; 2; 0; 2; 64; 2; 64; 2;
  64; 2; 64; 2; 64; 2; 64; 2; 64; 2; 64; 2; 64; 2; 64; 2; 64; 32; 0; 14; 5; 0; 1; 2; 3; 4; 0; 11; 32; 2; 32;
  1; 106; 34; 1; 65; 219; 200; 5; 75; 13; 7; 32; 1; 65; 2; 116; 65; 220; 147; 198; 128; 0; 106; 33; 1; 12;
  9; 11; 32; 2; 32; 1; 106; 34; 1; 65; 220; 11; 75; 13; 5; 32; 1; 65; 2; 116; 65; 204; 182; 220; 128; 0;
  106; 33; 1; 12; 8; 11; 32; 2; 32; 1; 106; 34; 1; 65; 131; 11; 75; 13; 3; 32; 1; 65; 2; 116; 65; 192; 229;
  220; 128; 0; 106; 33; 1; 12; 7; 11; 32; 2; 32; 1; 106; 34; 1; 65; 174; 8; 75; 13; 1; 32; 1; 65; 2; 116;
  65; 208; 145; 221; 128; 0; 106; 33; 1; 12; 6; 11; 32; 2; 32; 1; 106; 34; 1; 65; 217; 239; 16; 73; 13; 4;
  32; 1; 65; 217; 239; 16; 16; 134; 128; 128; 128; 0; 0; 11; 32; 1; 65; 175; 8; 16; 134; 128; 128; 128; 0;
  0; 11; 32; 1; 65; 132; 11; 16; 134; 128; 128; 128; 0; 0; 11; 32; 1; 65; 221; 11; 16; 134; 128; 128; 128;
  0; 0; 11; 32; 1; 65; 220; 200; 5; 16; 134; 128; 128; 128; 0; 0; 11; 32; 1; 65; 2; 116; 65; 140; 179; 221;
  128; 0; 106; 33; 1; 11; 32; 1; 40; 2; 0; 11; 9; 0; 16; 162; 128; 128; 128; 0; 0; 11; 4; 0; 0; 0; 11; 11;
  146; 173; 98; 2; 0; 65; 128; 128; 192; 0; 11; 221; 244; 96].

(** The first data segment is the tables of src/fonts/*.rs that are not written into the code, the text
    "\u{FFFD}" of src/blit.rs and the texts of src/demo.rs.  Tables that are the same in several fonts
    are there once. *)
Definition demo_pieces : list piece := [
  Words emoji_hash_geometric_shapes_extended;
  Words emoji_offset_geometric_shapes_extended;
  Words emoji_hash_symbols_and_pictographs_extended_a;
  Words emoji_offset_symbols_and_pictographs_extended_a;
  Words emoji_hash_supplemental_symbols_and_pictographs;
  Words emoji_offset_supplemental_symbols_and_pictographs;
  Words emoji_hash_transport_and_map_symbols;
  Words emoji_offset_transport_and_map_symbols;
  Words emoji_hash_emoticons;
  Words emoji_offset_emoticons;
  Words emoji_hash_miscellaneous_symbols_and_pictographs;
  Words emoji_offset_miscellaneous_symbols_and_pictographs;
  Words emoji_hash_enclosed_ideographic_supplement;
  Words emoji_offset_enclosed_ideographic_supplement;
  Words emoji_hash_enclosed_alphanumeric_supplement;
  Words emoji_offset_enclosed_alphanumeric_supplement;
  Words emoji_hash_mahjong_tiles;
  Words emoji_offset_mahjong_tiles;
  Words emoji_hash_enclosed_cjk_letters_and_months;
  Words emoji_offset_enclosed_cjk_letters_and_months;
  Words emoji_hash_cjk_symbols_and_punctuation;
  Words emoji_offset_cjk_symbols_and_punctuation;
  Words emoji_hash_miscellaneous_symbols_and_arrows;
  Words emoji_offset_miscellaneous_symbols_and_arrows;
  Words emoji_hash_supplemental_arrows_b;
  Words emoji_offset_supplemental_arrows_b;
  Words emoji_hash_dingbats;
  Words emoji_offset_dingbats;
  Words emoji_hash_miscellaneous_symbols;
  Words emoji_offset_miscellaneous_symbols;
  Words emoji_hash_geometric_shapes;
  Words emoji_offset_geometric_shapes;
  Words emoji_hash_enclosed_alphanumerics;
  Words emoji_offset_enclosed_alphanumerics;
  Words emoji_hash_miscellaneous_technical;
  Words emoji_offset_miscellaneous_technical;
  Words emoji_hash_arrows;
  Words emoji_offset_arrows;
  Words emoji_hash_letterlike_symbols;
  Words emoji_offset_letterlike_symbols;
  Words emoji_hash_general_punctuation;
  Words emoji_offset_general_punctuation;
  Words emoji_hash_latin_1_supplement;
  Words emoji_offset_latin_1_supplement;
  Words emoji_hash_basic_latin;
  Words emoji_offset_basic_latin;
  Bytes (utf8 0xFFFD);
  Bytes [0];
  Words hanzi_hash_cjk_symbols_and_punctuation;
  Words hanzi_offset_cjk_symbols_and_punctuation;
  Words hanzi_hash_cjk_unified_ideographs_extension_a;
  Words hanzi_offset_cjk_unified_ideographs_extension_a;
  Words hanzi_hash_cjk_unified_ideographs;
  Words hanzi_offset_cjk_unified_ideographs;
  Words hanzi_hash_halfwidth_and_fullwidth_forms;
  Words hanzi_offset_halfwidth_and_fullwidth_forms;
  Words hanzi_hash_cjk_unified_ideographs_extension_b;
  Words hanzi_offset_cjk_unified_ideographs_extension_b;
  Words hanzi_hash_cjk_unified_ideographs_extension_c;
  Words hanzi_offset_cjk_unified_ideographs_extension_c;
  Words hanzi_hash_cjk_unified_ideographs_extension_d;
  Words hanzi_offset_cjk_unified_ideographs_extension_d;
  Words hanzi_hash_cjk_unified_ideographs_extension_e;
  Words hanzi_offset_cjk_unified_ideographs_extension_e;
  Words bold_offset_latin_1_supplement;
  Words bold_offset_latin_extended_a;
  Words bold_offset_general_punctuation;
  Words bold_offset_basic_latin;
  Words small_offset_latin_1_supplement;
  Words small_offset_latin_extended_a;
  Words small_offset_general_punctuation;
  Words small_offset_basic_latin;
  Words bold_hash_latin_1_supplement;
  Words regular_offset_latin_1_supplement;
  Words bold_hash_latin_extended_a;
  Words regular_offset_latin_extended_a;
  Words bold_hash_general_punctuation;
  Words regular_offset_general_punctuation;
  Words bold_hash_basic_latin;
  Words regular_offset_basic_latin;
  Words (concat emoji_data);
  Words (concat bold_data);
  Words (concat regular_data);
  Words (concat small_data);
  Words (concat hanzi_data);
  Bytes (flat_map utf8 str_note);
  Bytes (flat_map utf8 str_sas1);
  Bytes (flat_map utf8 str_sas2);
  Bytes (flat_map utf8 str_sas3);
  Bytes (flat_map utf8 str_sas4);
  Bytes (flat_map utf8 str_wrap);
  Bytes (flat_map utf8 str_poem)].

(** Where they are in memory *)
Definition demo_addrs : list N := [
  1048576; 1048624; 1048672; 1048900; 1049128; 1052656; 1056184; 1056992; 1057800; 1058572; 1059344;
  1065936; 1072528; 1072604; 1072680; 1073892; 1075104; 1075112; 1075120; 1075136; 1075152; 1075168;
  1075184; 1075240; 1075296; 1075312; 1075328; 1075620; 1075912; 1076680; 1077448; 1077512; 1077576;
  1077584; 1077592; 1077724; 1077856; 1077920; 1077984; 1078000; 1078016; 1078032; 1078048; 1078064;
  1078080; 1078176; 1078272; 1078275; 1078276; 1078404; 1078532; 1078856; 1079180; 1111068; 1142956;
  1143340; 1143724; 1143868; 1144012; 1144188; 1144364; 1144396; 1144428; 1144860; 1145292; 1145676;
  1145684; 1145728; 1146320; 1146704; 1146712; 1146756; 1147348; 1147732; 1148116; 1148124; 1148132;
  1148176; 1148220; 1148812; 1149404; 1514316; 1520320; 1525968; 1530252; 2636016; 2636056; 2636099;
  2636131; 2636164; 2636194; 2636308].

(** Bytes 1605886-1605895 of the file *)
Definition demo_mid : list N := [0; 65; 224; 244; 160; 1; 11; 160; 184; 1].

Definition demo_file : list N :=
  demo_head ++ pieces_bytes demo_pieces ++ demo_mid ++ words_bytes new_fr_buf.
