(** GENERATED by tools/gen_editor.py -- do not edit.
    The tables of codegen/config_editor.rb, Unicode data, codegen/src_data/icon_index.json. *)
From Coq Require Import ZArith String.
From Verif Require Import Prim Str Render Config Editor.

Local Open Scope string_scope.
Local Open Scope list_scope.

(** config_editor.rb:23-95 *)
Definition script_sets : list config_set :=
  [ConfigSet (lit "Emoji") 0 (lit "src_data/emoji_13_0.png") 32 16 0 0 (lit "src_data/twemoji_legal.txt") (lit "src_data/emoji_13_0_index.txt") (lit "txt-row-major") (lit "src_data/emoji_13_0_aliases.txt") (lit "proportional") (lit "../src/fonts/emoji.rs");
   ConfigSet (lit "Hanzi") 0 (lit "src_data/hanzi_core2020_g.png") 32 20 2 2 (lit "src_data/noto_sans_sc_legal.txt") (lit "src_data/hanzi_core2020_g_index.txt") (lit "txt-row-major") (lit "") (lit "CJK") (lit "../src/fonts/hanzi.rs");
   ConfigSet (lit "Bold") 0 (lit "src_data/bold.png") 30 16 2 2 (lit "src_data/chicago_legal.txt") latin_index_outfile (lit "json-grid-coord") (lit "src_data/latin_aliases.txt") (lit "proportional") (lit "../src/fonts/bold.rs");
   ConfigSet (lit "Regular") 0 (lit "src_data/regular.png") 30 16 2 2 (lit "src_data/geneva_legal.txt") latin_index_outfile (lit "json-grid-coord") (lit "src_data/latin_aliases.txt") (lit "proportional") (lit "../src/fonts/regular.rs");
   ConfigSet (lit "Small") 0 (lit "src_data/small.png") 24 16 2 2 (lit "src_data/geneva_legal.txt") latin_index_outfile (lit "json-grid-coord") (lit "src_data/latin_aliases.txt") (lit "proportional") (lit "../src/fonts/small.rs")].

(** config_editor.rb:101-320 *)
Definition script_latin : list index_row :=
  [IndexRow (lit "20") 0 2 (lit " ");
   IndexRow (lit "21") 1 2 (lit "!");
   IndexRow (lit "22") 2 2 (lit """");
   IndexRow (lit "23") 3 2 (lit "#");
   IndexRow (lit "24") 4 2 (lit "$");
   IndexRow (lit "25") 5 2 (lit "%");
   IndexRow (lit "26") 6 2 (lit "&");
   IndexRow (lit "27") 7 2 (lit "'");
   IndexRow (lit "28") 8 2 (lit "(");
   IndexRow (lit "29") 9 2 (lit ")");
   IndexRow (lit "2A") 10 2 (lit "*");
   IndexRow (lit "2B") 11 2 (lit "+");
   IndexRow (lit "2C") 12 2 (lit ",");
   IndexRow (lit "2D") 13 2 (lit "-");
   IndexRow (lit "2E") 14 2 (lit ".");
   IndexRow (lit "2F") 15 2 (lit "/");
   IndexRow (lit "30") 0 3 (lit "0");
   IndexRow (lit "31") 1 3 (lit "1");
   IndexRow (lit "32") 2 3 (lit "2");
   IndexRow (lit "33") 3 3 (lit "3");
   IndexRow (lit "34") 4 3 (lit "4");
   IndexRow (lit "35") 5 3 (lit "5");
   IndexRow (lit "36") 6 3 (lit "6");
   IndexRow (lit "37") 7 3 (lit "7");
   IndexRow (lit "38") 8 3 (lit "8");
   IndexRow (lit "39") 9 3 (lit "9");
   IndexRow (lit "3A") 10 3 (lit ":");
   IndexRow (lit "3B") 11 3 (lit ";");
   IndexRow (lit "3C") 12 3 (lit "<");
   IndexRow (lit "3D") 13 3 (lit "=");
   IndexRow (lit "3E") 14 3 (lit ">");
   IndexRow (lit "3F") 15 3 (lit "?");
   IndexRow (lit "40") 0 4 (lit "@");
   IndexRow (lit "41") 1 4 (lit "A");
   IndexRow (lit "42") 2 4 (lit "B");
   IndexRow (lit "43") 3 4 (lit "C");
   IndexRow (lit "44") 4 4 (lit "D");
   IndexRow (lit "45") 5 4 (lit "E");
   IndexRow (lit "46") 6 4 (lit "F");
   IndexRow (lit "47") 7 4 (lit "G");
   IndexRow (lit "48") 8 4 (lit "H");
   IndexRow (lit "49") 9 4 (lit "I");
   IndexRow (lit "4A") 10 4 (lit "J");
   IndexRow (lit "4B") 11 4 (lit "K");
   IndexRow (lit "4C") 12 4 (lit "L");
   IndexRow (lit "4D") 13 4 (lit "M");
   IndexRow (lit "4E") 14 4 (lit "N");
   IndexRow (lit "4F") 15 4 (lit "O");
   IndexRow (lit "50") 0 5 (lit "P");
   IndexRow (lit "51") 1 5 (lit "Q");
   IndexRow (lit "52") 2 5 (lit "R");
   IndexRow (lit "53") 3 5 (lit "S");
   IndexRow (lit "54") 4 5 (lit "T");
   IndexRow (lit "55") 5 5 (lit "U");
   IndexRow (lit "56") 6 5 (lit "V");
   IndexRow (lit "57") 7 5 (lit "W");
   IndexRow (lit "58") 8 5 (lit "X");
   IndexRow (lit "59") 9 5 (lit "Y");
   IndexRow (lit "5A") 10 5 (lit "Z");
   IndexRow (lit "5B") 11 5 (lit "[");
   IndexRow (lit "5C") 12 5 (lit "\");
   IndexRow (lit "5D") 13 5 (lit "]");
   IndexRow (lit "5E") 14 5 (lit "^");
   IndexRow (lit "5F") 15 5 (lit "_");
   IndexRow (lit "60") 0 6 (lit "`");
   IndexRow (lit "61") 1 6 (lit "a");
   IndexRow (lit "62") 2 6 (lit "b");
   IndexRow (lit "63") 3 6 (lit "c");
   IndexRow (lit "64") 4 6 (lit "d");
   IndexRow (lit "65") 5 6 (lit "e");
   IndexRow (lit "66") 6 6 (lit "f");
   IndexRow (lit "67") 7 6 (lit "g");
   IndexRow (lit "68") 8 6 (lit "h");
   IndexRow (lit "69") 9 6 (lit "i");
   IndexRow (lit "6A") 10 6 (lit "j");
   IndexRow (lit "6B") 11 6 (lit "k");
   IndexRow (lit "6C") 12 6 (lit "l");
   IndexRow (lit "6D") 13 6 (lit "m");
   IndexRow (lit "6E") 14 6 (lit "n");
   IndexRow (lit "6F") 15 6 (lit "o");
   IndexRow (lit "70") 0 7 (lit "p");
   IndexRow (lit "71") 1 7 (lit "q");
   IndexRow (lit "72") 2 7 (lit "r");
   IndexRow (lit "73") 3 7 (lit "s");
   IndexRow (lit "74") 4 7 (lit "t");
   IndexRow (lit "75") 5 7 (lit "u");
   IndexRow (lit "76") 6 7 (lit "v");
   IndexRow (lit "77") 7 7 (lit "w");
   IndexRow (lit "78") 8 7 (lit "x");
   IndexRow (lit "79") 9 7 (lit "y");
   IndexRow (lit "7A") 10 7 (lit "z");
   IndexRow (lit "7B") 11 7 (lit "{");
   IndexRow (lit "7C") 12 7 (lit "|");
   IndexRow (lit "7D") 13 7 (lit "}");
   IndexRow (lit "7E") 14 7 (lit "~");
   IndexRow (lit "A0") 0 2 (lit "No-Break Space");
   IndexRow (lit "A1") 1 12 ([0xA1]);
   IndexRow (lit "A2") 2 10 ([0xA2]);
   IndexRow (lit "A3") 3 10 ([0xA3]);
   IndexRow (lit "A4") 15 1 ([0xA4]);
   IndexRow (lit "A5") 4 11 ([0xA5]);
   IndexRow (lit "A6") 15 7 ([0xA6]);
   IndexRow (lit "A7") 4 10 ([0xA7]);
   IndexRow (lit "A8") 12 10 ([0xA8]);
   IndexRow (lit "A9") 9 10 ([0xA9]);
   IndexRow (lit "AA") 11 11 ([0xAA]);
   IndexRow (lit "AB") 7 12 ([0xAB]);
   IndexRow (lit "AC") 2 12 ([0xAC]);
   IndexRow (lit "AD") 13 2 (lit "Soft Hyphen");
   IndexRow (lit "AE") 8 10 ([0xAE]);
   IndexRow (lit "AF") 8 15 ([0xAF; 0x20; 0x4D; 0x61; 0x63; 0x72; 0x6F; 0x6E]);
   IndexRow (lit "B0") 1 10 ([0xB0; 0x20; 0x44; 0x65; 0x67; 0x72; 0x65; 0x65; 0x20; 0x53; 0x69; 0x67; 0x6E]);
   IndexRow (lit "B1") 1 11 ([0xB1]);
   IndexRow (lit "B2") 3 1 ([0xB2]);
   IndexRow (lit "B3") 4 1 ([0xB3]);
   IndexRow (lit "B4") 11 10 ([0xB4]);
   IndexRow (lit "B5") 5 11 ([0xB5]);
   IndexRow (lit "B6") 6 10 ([0xB6]);
   IndexRow (lit "B7") 1 14 ([0xB7]);
   IndexRow (lit "B8") 12 15 ([0xB8; 0x20; 0x43; 0x65; 0x64; 0x69; 0x6C; 0x6C; 0x69; 0x61]);
   IndexRow (lit "B9") 2 1 ([0xB9]);
   IndexRow (lit "BA") 12 11 ([0xBA]);
   IndexRow (lit "BB") 8 12 ([0xBB]);
   IndexRow (lit "BC") 5 1 ([0xBC]);
   IndexRow (lit "BD") 6 1 ([0xBD]);
   IndexRow (lit "BE") 7 1 ([0xBE]);
   IndexRow (lit "BF") 0 12 ([0xBF]);
   IndexRow (lit "C0") 11 12 ([0xC0]);
   IndexRow (lit "C1") 7 14 ([0xC1]);
   IndexRow (lit "C2") 5 14 ([0xC2]);
   IndexRow (lit "C3") 12 12 ([0xC3]);
   IndexRow (lit "C4") 0 8 ([0xC4]);
   IndexRow (lit "C5") 1 8 ([0xC5]);
   IndexRow (lit "C6") 14 10 ([0xC6]);
   IndexRow (lit "C7") 2 8 ([0xC7]);
   IndexRow (lit "C8") 9 14 ([0xC8]);
   IndexRow (lit "C9") 3 8 ([0xC9]);
   IndexRow (lit "CA") 6 14 ([0xCA]);
   IndexRow (lit "CB") 8 14 ([0xCB]);
   IndexRow (lit "CC") 13 14 ([0xCC]);
   IndexRow (lit "CD") 10 14 ([0xCD]);
   IndexRow (lit "CE") 11 14 ([0xCE]);
   IndexRow (lit "CF") 12 14 ([0xCF]);
   IndexRow (lit "D0") 8 1 ([0xD0]);
   IndexRow (lit "D1") 4 8 ([0xD1]);
   IndexRow (lit "D2") 1 15 ([0xD2]);
   IndexRow (lit "D3") 14 14 ([0xD3]);
   IndexRow (lit "D4") 15 14 ([0xD4]);
   IndexRow (lit "D5") 13 12 ([0xD5]);
   IndexRow (lit "D6") 5 8 ([0xD6]);
   IndexRow (lit "D7") 9 1 ([0xD7; 0x20; 0x4D; 0x75; 0x6C; 0x74; 0x69; 0x70; 0x6C; 0x69; 0x63; 0x61; 0x74; 0x69; 0x6F; 0x6E; 0x20; 0x53; 0x69; 0x67; 0x6E]);
   IndexRow (lit "D8") 15 10 ([0xD8]);
   IndexRow (lit "D9") 4 15 ([0xD9]);
   IndexRow (lit "DA") 2 15 ([0xDA]);
   IndexRow (lit "DB") 3 15 ([0xDB]);
   IndexRow (lit "DC") 6 8 ([0xDC]);
   IndexRow (lit "DD") 10 1 ([0xDD]);
   IndexRow (lit "DE") 11 1 ([0xDE]);
   IndexRow (lit "DF") 7 10 ([0xDF]);
   IndexRow (lit "E0") 8 8 ([0xE0]);
   IndexRow (lit "E1") 7 8 ([0xE1]);
   IndexRow (lit "E2") 9 8 ([0xE2]);
   IndexRow (lit "E3") 11 8 ([0xE3]);
   IndexRow (lit "E4") 10 8 ([0xE4]);
   IndexRow (lit "E5") 12 8 ([0xE5]);
   IndexRow (lit "E6") 14 11 ([0xE6]);
   IndexRow (lit "E7") 13 8 ([0xE7]);
   IndexRow (lit "E8") 15 8 ([0xE8]);
   IndexRow (lit "E9") 14 8 ([0xE9]);
   IndexRow (lit "EA") 0 9 ([0xEA]);
   IndexRow (lit "EB") 1 9 ([0xEB]);
   IndexRow (lit "EC") 3 9 ([0xEC]);
   IndexRow (lit "ED") 2 9 ([0xED]);
   IndexRow (lit "EE") 4 9 ([0xEE]);
   IndexRow (lit "EF") 5 9 ([0xEF]);
   IndexRow (lit "F0") 12 1 ([0xF0]);
   IndexRow (lit "F1") 6 9 ([0xF1]);
   IndexRow (lit "F2") 8 9 ([0xF2]);
   IndexRow (lit "F3") 7 9 ([0xF3]);
   IndexRow (lit "F4") 9 9 ([0xF4]);
   IndexRow (lit "F5") 11 9 ([0xF5]);
   IndexRow (lit "F6") 10 9 ([0xF6]);
   IndexRow (lit "F7") 6 13 ([0xF7]);
   IndexRow (lit "F8") 15 11 ([0xF8]);
   IndexRow (lit "F9") 13 9 ([0xF9]);
   IndexRow (lit "FA") 12 9 ([0xFA]);
   IndexRow (lit "FB") 14 9 ([0xFB]);
   IndexRow (lit "FC") 15 9 ([0xFC]);
   IndexRow (lit "FD") 13 1 ([0xFD]);
   IndexRow (lit "FE") 14 1 ([0xFE]);
   IndexRow (lit "FF") 8 13 ([0xFF]);
   IndexRow (lit "152") 14 12 ([0x152]);
   IndexRow (lit "153") 15 12 ([0x153]);
   IndexRow (lit "2018") 4 13 ([0x2018; 0x20; 0x4C; 0x65; 0x66; 0x74; 0x20; 0x53; 0x69; 0x6E; 0x67; 0x6C; 0x65; 0x20; 0x51; 0x75; 0x6F; 0x74; 0x61; 0x74; 0x69; 0x6F; 0x6E; 0x20; 0x4D; 0x61; 0x72; 0x6B]);
   IndexRow (lit "2019") 5 13 ([0x2019; 0x20; 0x52; 0x69; 0x67; 0x68; 0x74; 0x20; 0x53; 0x69; 0x6E; 0x67; 0x6C; 0x65; 0x20; 0x51; 0x75; 0x6F; 0x74; 0x61; 0x74; 0x69; 0x6F; 0x6E; 0x20; 0x4D; 0x61; 0x72; 0x6B]);
   IndexRow (lit "201A") 2 14 ([0x201A; 0x20; 0x53; 0x69; 0x6E; 0x67; 0x6C; 0x65; 0x20; 0x4C; 0x6F; 0x77; 0x2D; 0x39; 0x20; 0x51; 0x75; 0x6F; 0x74; 0x61; 0x74; 0x69; 0x6F; 0x6E; 0x20; 0x4D; 0x61; 0x72; 0x6B]);
   IndexRow (lit "201B") 7 11 ([0x201B; 0x20; 0x53; 0x69; 0x6E; 0x67; 0x6C; 0x65; 0x20; 0x48; 0x69; 0x67; 0x68; 0x2D; 0x52; 0x65; 0x76; 0x65; 0x72; 0x73; 0x65; 0x64; 0x2D; 0x39; 0x20; 0x51; 0x75; 0x6F; 0x74; 0x61; 0x74; 0x69; 0x6F; 0x6E; 0x20; 0x4D; 0x61; 0x72; 0x6B]);
   IndexRow (lit "201C") 2 13 ([0x201C; 0x20; 0x4C; 0x65; 0x66; 0x74; 0x20; 0x44; 0x6F; 0x75; 0x62; 0x6C; 0x65; 0x20; 0x51; 0x75; 0x6F; 0x74; 0x61; 0x74; 0x69; 0x6F; 0x6E; 0x20; 0x4D; 0x61; 0x72; 0x6B]);
   IndexRow (lit "201D") 3 13 ([0x201D; 0x20; 0x52; 0x69; 0x67; 0x68; 0x74; 0x20; 0x44; 0x6F; 0x75; 0x62; 0x6C; 0x65; 0x20; 0x51; 0x75; 0x6F; 0x74; 0x61; 0x74; 0x69; 0x6F; 0x6E; 0x20; 0x4D; 0x61; 0x72; 0x6B]);
   IndexRow (lit "201E") 3 14 ([0x201E; 0x20; 0x44; 0x6F; 0x75; 0x62; 0x6C; 0x65; 0x20; 0x4C; 0x6F; 0x77; 0x2D; 0x39; 0x20; 0x51; 0x75; 0x6F; 0x74; 0x61; 0x74; 0x69; 0x6F; 0x6E; 0x20; 0x4D; 0x61; 0x72; 0x6B]);
   IndexRow (lit "201F") 8 11 ([0x201F; 0x20; 0x44; 0x6F; 0x75; 0x62; 0x6C; 0x65; 0x20; 0x48; 0x69; 0x67; 0x68; 0x2D; 0x52; 0x65; 0x76; 0x65; 0x72; 0x73; 0x65; 0x64; 0x2D; 0x39; 0x20; 0x51; 0x75; 0x6F; 0x74; 0x61; 0x74; 0x69; 0x6F; 0x6E; 0x20; 0x4D; 0x61; 0x72; 0x6B]);
   IndexRow (lit "2020") 0 10 ([0x2020]);
   IndexRow (lit "2021") 0 14 ([0x2021]);
   IndexRow (lit "2022") 5 10 ([0x2022]);
   IndexRow (lit "20AC") 11 13 ([0x20AC]);
   IndexRow (lit "FFFD") 0 15 ([0xFFFD])].

(** config_editor.rb:326-341 *)
Definition script_icons : list index_row :=
  [IndexRow (lit "E700") 0 0 (lit "Battery_05");
   IndexRow (lit "E701") 1 0 (lit "Battery_25");
   IndexRow (lit "E702") 2 0 (lit "Battery_50");
   IndexRow (lit "E703") 3 0 (lit "Battery_75");
   IndexRow (lit "E704") 4 0 (lit "Battery_99");
   IndexRow (lit "E705") 5 0 (lit "Radio_3");
   IndexRow (lit "E706") 6 0 (lit "Radio_2");
   IndexRow (lit "E707") 7 0 (lit "Radio_1");
   IndexRow (lit "E708") 8 0 (lit "Radio_0");
   IndexRow (lit "E709") 9 0 (lit "Radio_Off");
   IndexRow (lit "E70A") 13 0 (lit "Shift_Arrow");
   IndexRow (lit "E70B") 14 0 (lit "Backspace_Symbol");
   IndexRow (lit "E70C") 15 0 (lit "Enter_Symbol")].

(** config_editor.rb:24-26, 98-100, 323-325 *)
Definition script_tables : tables :=
  Tables [lit "Config for use with main.go. Before making changes here, see config_editor.rb."] script_sets
    [lit "Before making changes here, see ../config_editor.rb."] script_latin
    [lit "Before making changes here, see ../config_editor.rb."] script_icons.

(** The characters of the Latin index with a canonical decomposition (Unicode data) *)
Definition latin_decompositions : list (list N * list N) :=
  [([0xC0], [0x41; 0x300]);
   ([0xC1], [0x41; 0x301]);
   ([0xC2], [0x41; 0x302]);
   ([0xC3], [0x41; 0x303]);
   ([0xC4], [0x41; 0x308]);
   ([0xC5], [0x41; 0x30A]);
   ([0xC7], [0x43; 0x327]);
   ([0xC8], [0x45; 0x300]);
   ([0xC9], [0x45; 0x301]);
   ([0xCA], [0x45; 0x302]);
   ([0xCB], [0x45; 0x308]);
   ([0xCC], [0x49; 0x300]);
   ([0xCD], [0x49; 0x301]);
   ([0xCE], [0x49; 0x302]);
   ([0xCF], [0x49; 0x308]);
   ([0xD1], [0x4E; 0x303]);
   ([0xD2], [0x4F; 0x300]);
   ([0xD3], [0x4F; 0x301]);
   ([0xD4], [0x4F; 0x302]);
   ([0xD5], [0x4F; 0x303]);
   ([0xD6], [0x4F; 0x308]);
   ([0xD9], [0x55; 0x300]);
   ([0xDA], [0x55; 0x301]);
   ([0xDB], [0x55; 0x302]);
   ([0xDC], [0x55; 0x308]);
   ([0xDD], [0x59; 0x301]);
   ([0xE0], [0x61; 0x300]);
   ([0xE1], [0x61; 0x301]);
   ([0xE2], [0x61; 0x302]);
   ([0xE3], [0x61; 0x303]);
   ([0xE4], [0x61; 0x308]);
   ([0xE5], [0x61; 0x30A]);
   ([0xE7], [0x63; 0x327]);
   ([0xE8], [0x65; 0x300]);
   ([0xE9], [0x65; 0x301]);
   ([0xEA], [0x65; 0x302]);
   ([0xEB], [0x65; 0x308]);
   ([0xEC], [0x69; 0x300]);
   ([0xED], [0x69; 0x301]);
   ([0xEE], [0x69; 0x302]);
   ([0xEF], [0x69; 0x308]);
   ([0xF1], [0x6E; 0x303]);
   ([0xF2], [0x6F; 0x300]);
   ([0xF3], [0x6F; 0x301]);
   ([0xF4], [0x6F; 0x302]);
   ([0xF5], [0x6F; 0x303]);
   ([0xF6], [0x6F; 0x308]);
   ([0xF9], [0x75; 0x300]);
   ([0xFA], [0x75; 0x301]);
   ([0xFB], [0x75; 0x302]);
   ([0xFC], [0x75; 0x308]);
   ([0xFD], [0x79; 0x301]);
   ([0xFF], [0x79; 0x308])].

(** codegen/src_data/icon_index.json, cut into pieces *)
Definition icon_index_json : list string :=
  ["{ ""comment"": [
""Before making changes here, see ../config_editor.rb.""
], ""map"": [
{ ""hex"": ""E700"", ""row"": 0, ""col"": 0, ""label"": ""Battery_05"" },
{ ""hex"": ""E701"", ""row"": 1, ""col"": 0, ""label"": ""Battery_25"" },
{ ""hex"": ""E702"", ""row"": 2, ""col"": 0, ""label"": ""Battery_50"" },
{ ""hex"": ""E703"", ""row"": 3, ""col"": 0, ""label"": ""Battery_75"" },
{ ""hex"": ""E704"", ""row"": 4, ""col"": 0, ""label"": ""Battery_99"" },
{ ""hex"": ""E705"", ""row"": 5, ""col"": 0, ""label"": ""Radio_3"" },
{ ""hex"": ""E706"", ""row"": 6, ""col"": 0, ""label"": ""Radio_2"" },
{ ""hex"": ""E707"", ""row"": 7, ""col"": 0, ""label"": ""Radio_1"" },
{ ""hex"": ""E708"", ""row"": 8, ""col"": 0, ""label"": ""Radio_0"" },
{ ""hex"": ""E709"", ""row"": 9, ""col"": 0, ""label"": ""Radio_Off"" },
{ ""hex"": ""E70A"", ""row"": 13, ""col"": 0, ""label"": ""Shift_Arrow"" },
{ ""hex"": ""E70B"", ""row"": 14, ""col"": 0, ""label"": ""Backspace_Symbol"" },
{ ""hex"": ""E70C"", ""row"": 15, ""col"": 0, ""label"": ""Enter_Symbol"" }
] }"].
