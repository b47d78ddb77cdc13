(** GENERATED by tools/gen_index.py -- do not edit.
    Clusters of the Small, Regular and Bold fonts; aliases (canonical, alias). *)
From Verif Require Import Prim Str.

(** codegen/src_data/latin_index.json *)
Definition latin_index : list str :=
  [[0x20]; [0x21]; [0x22]; [0x23]; [0x24]; [0x25]; [0x26]; [0x27]; [0x28]; [0x29];
   [0x2A]; [0x2B]; [0x2C]; [0x2D]; [0x2E]; [0x2F]; [0x30]; [0x31]; [0x32]; [0x33];
   [0x34]; [0x35]; [0x36]; [0x37]; [0x38]; [0x39]; [0x3A]; [0x3B]; [0x3C]; [0x3D];
   [0x3E]; [0x3F]; [0x40]; [0x41]; [0x42]; [0x43]; [0x44]; [0x45]; [0x46]; [0x47];
   [0x48]; [0x49]; [0x4A]; [0x4B]; [0x4C]; [0x4D]; [0x4E]; [0x4F]; [0x50]; [0x51];
   [0x52]; [0x53]; [0x54]; [0x55]; [0x56]; [0x57]; [0x58]; [0x59]; [0x5A]; [0x5B];
   [0x5C]; [0x5D]; [0x5E]; [0x5F]; [0x60]; [0x61]; [0x62]; [0x63]; [0x64]; [0x65];
   [0x66]; [0x67]; [0x68]; [0x69]; [0x6A]; [0x6B]; [0x6C]; [0x6D]; [0x6E]; [0x6F];
   [0x70]; [0x71]; [0x72]; [0x73]; [0x74]; [0x75]; [0x76]; [0x77]; [0x78]; [0x79];
   [0x7A]; [0x7B]; [0x7C]; [0x7D]; [0x7E]; [0xA0]; [0xA1]; [0xA2]; [0xA3]; [0xA4];
   [0xA5]; [0xA6]; [0xA7]; [0xA8]; [0xA9]; [0xAA]; [0xAB]; [0xAC]; [0xAD]; [0xAE];
   [0xAF]; [0xB0]; [0xB1]; [0xB2]; [0xB3]; [0xB4]; [0xB5]; [0xB6]; [0xB7]; [0xB8];
   [0xB9]; [0xBA]; [0xBB]; [0xBC]; [0xBD]; [0xBE]; [0xBF]; [0xC0]; [0xC1]; [0xC2];
   [0xC3]; [0xC4]; [0xC5]; [0xC6]; [0xC7]; [0xC8]; [0xC9]; [0xCA]; [0xCB]; [0xCC];
   [0xCD]; [0xCE]; [0xCF]; [0xD0]; [0xD1]; [0xD2]; [0xD3]; [0xD4]; [0xD5]; [0xD6];
   [0xD7]; [0xD8]; [0xD9]; [0xDA]; [0xDB]; [0xDC]; [0xDD]; [0xDE]; [0xDF]; [0xE0];
   [0xE1]; [0xE2]; [0xE3]; [0xE4]; [0xE5]; [0xE6]; [0xE7]; [0xE8]; [0xE9]; [0xEA];
   [0xEB]; [0xEC]; [0xED]; [0xEE]; [0xEF]; [0xF0]; [0xF1]; [0xF2]; [0xF3]; [0xF4];
   [0xF5]; [0xF6]; [0xF7]; [0xF8]; [0xF9]; [0xFA]; [0xFB]; [0xFC]; [0xFD]; [0xFE];
   [0xFF]; [0x152]; [0x153]; [0x2018]; [0x2019]; [0x201A]; [0x201B]; [0x201C]; [0x201D]; [0x201E];
   [0x201F]; [0x2020]; [0x2021]; [0x2022]; [0x20AC]; [0xFFFD]].
(** codegen/src_data/latin_aliases.txt *)
Definition latin_aliases : list (str * str) :=
  [([0xC0], [0x41; 0x300]); ([0xC1], [0x41; 0x301]); ([0xC2], [0x41; 0x302]);
   ([0xC3], [0x41; 0x303]); ([0xC4], [0x41; 0x308]); ([0xC5], [0x41; 0x30A]);
   ([0xC7], [0x43; 0x327]); ([0xC8], [0x45; 0x300]); ([0xC9], [0x45; 0x301]);
   ([0xCA], [0x45; 0x302]); ([0xCB], [0x45; 0x308]); ([0xCC], [0x49; 0x300]);
   ([0xCD], [0x49; 0x301]); ([0xCE], [0x49; 0x302]); ([0xCF], [0x49; 0x308]);
   ([0xD1], [0x4E; 0x303]); ([0xD2], [0x4F; 0x300]); ([0xD3], [0x4F; 0x301]);
   ([0xD4], [0x4F; 0x302]); ([0xD5], [0x4F; 0x303]); ([0xD6], [0x4F; 0x308]);
   ([0xD9], [0x55; 0x300]); ([0xDA], [0x55; 0x301]); ([0xDB], [0x55; 0x302]);
   ([0xDC], [0x55; 0x308]); ([0xDD], [0x59; 0x301]); ([0xE0], [0x61; 0x300]);
   ([0xE1], [0x61; 0x301]); ([0xE2], [0x61; 0x302]); ([0xE3], [0x61; 0x303]);
   ([0xE4], [0x61; 0x308]); ([0xE5], [0x61; 0x30A]); ([0xE7], [0x63; 0x327]);
   ([0xE8], [0x65; 0x300]); ([0xE9], [0x65; 0x301]); ([0xEA], [0x65; 0x302]);
   ([0xEB], [0x65; 0x308]); ([0xEC], [0x69; 0x300]); ([0xED], [0x69; 0x301]);
   ([0xEE], [0x69; 0x302]); ([0xEF], [0x69; 0x308]); ([0xF1], [0x6E; 0x303]);
   ([0xF2], [0x6F; 0x300]); ([0xF3], [0x6F; 0x301]); ([0xF4], [0x6F; 0x302]);
   ([0xF5], [0x6F; 0x303]); ([0xF6], [0x6F; 0x308]); ([0xF9], [0x75; 0x300]);
   ([0xFA], [0x75; 0x301]); ([0xFB], [0x75; 0x302]); ([0xFC], [0x75; 0x308]);
   ([0xFD], [0x79; 0x301]); ([0xFF], [0x79; 0x308])].
