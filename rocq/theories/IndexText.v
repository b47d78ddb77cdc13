(** GENERATED by tools/gen_sheets.py -- do not edit.
    Contents of the index and alias files. *)
From Coq Require Import ZArith String.
From Verif Require Import Prim.

Local Open Scope string_scope.
Local Open Scope list_scope.

(** codegen/src_data/latin_index.json: hex, row and col of each entry of map *)
Definition latin_map : list (string * Z * Z) :=
  [("20", 0, 2); ("21", 1, 2); ("22", 2, 2); ("23", 3, 2); ("24", 4, 2);
   ("25", 5, 2); ("26", 6, 2); ("27", 7, 2); ("28", 8, 2); ("29", 9, 2);
   ("2A", 10, 2); ("2B", 11, 2); ("2C", 12, 2); ("2D", 13, 2); ("2E", 14, 2);
   ("2F", 15, 2); ("30", 0, 3); ("31", 1, 3); ("32", 2, 3); ("33", 3, 3);
   ("34", 4, 3); ("35", 5, 3); ("36", 6, 3); ("37", 7, 3); ("38", 8, 3);
   ("39", 9, 3); ("3A", 10, 3); ("3B", 11, 3); ("3C", 12, 3); ("3D", 13, 3);
   ("3E", 14, 3); ("3F", 15, 3); ("40", 0, 4); ("41", 1, 4); ("42", 2, 4);
   ("43", 3, 4); ("44", 4, 4); ("45", 5, 4); ("46", 6, 4); ("47", 7, 4);
   ("48", 8, 4); ("49", 9, 4); ("4A", 10, 4); ("4B", 11, 4); ("4C", 12, 4);
   ("4D", 13, 4); ("4E", 14, 4); ("4F", 15, 4); ("50", 0, 5); ("51", 1, 5);
   ("52", 2, 5); ("53", 3, 5); ("54", 4, 5); ("55", 5, 5); ("56", 6, 5);
   ("57", 7, 5); ("58", 8, 5); ("59", 9, 5); ("5A", 10, 5); ("5B", 11, 5);
   ("5C", 12, 5); ("5D", 13, 5); ("5E", 14, 5); ("5F", 15, 5); ("60", 0, 6);
   ("61", 1, 6); ("62", 2, 6); ("63", 3, 6); ("64", 4, 6); ("65", 5, 6);
   ("66", 6, 6); ("67", 7, 6); ("68", 8, 6); ("69", 9, 6); ("6A", 10, 6);
   ("6B", 11, 6); ("6C", 12, 6); ("6D", 13, 6); ("6E", 14, 6); ("6F", 15, 6);
   ("70", 0, 7); ("71", 1, 7); ("72", 2, 7); ("73", 3, 7); ("74", 4, 7);
   ("75", 5, 7); ("76", 6, 7); ("77", 7, 7); ("78", 8, 7); ("79", 9, 7);
   ("7A", 10, 7); ("7B", 11, 7); ("7C", 12, 7); ("7D", 13, 7); ("7E", 14, 7);
   ("A0", 0, 2); ("A1", 1, 12); ("A2", 2, 10); ("A3", 3, 10); ("A4", 15, 1);
   ("A5", 4, 11); ("A6", 15, 7); ("A7", 4, 10); ("A8", 12, 10); ("A9", 9, 10);
   ("AA", 11, 11); ("AB", 7, 12); ("AC", 2, 12); ("AD", 13, 2); ("AE", 8, 10);
   ("AF", 8, 15); ("B0", 1, 10); ("B1", 1, 11); ("B2", 3, 1); ("B3", 4, 1);
   ("B4", 11, 10); ("B5", 5, 11); ("B6", 6, 10); ("B7", 1, 14); ("B8", 12, 15);
   ("B9", 2, 1); ("BA", 12, 11); ("BB", 8, 12); ("BC", 5, 1); ("BD", 6, 1);
   ("BE", 7, 1); ("BF", 0, 12); ("C0", 11, 12); ("C1", 7, 14); ("C2", 5, 14);
   ("C3", 12, 12); ("C4", 0, 8); ("C5", 1, 8); ("C6", 14, 10); ("C7", 2, 8);
   ("C8", 9, 14); ("C9", 3, 8); ("CA", 6, 14); ("CB", 8, 14); ("CC", 13, 14);
   ("CD", 10, 14); ("CE", 11, 14); ("CF", 12, 14); ("D0", 8, 1); ("D1", 4, 8);
   ("D2", 1, 15); ("D3", 14, 14); ("D4", 15, 14); ("D5", 13, 12); ("D6", 5, 8);
   ("D7", 9, 1); ("D8", 15, 10); ("D9", 4, 15); ("DA", 2, 15); ("DB", 3, 15);
   ("DC", 6, 8); ("DD", 10, 1); ("DE", 11, 1); ("DF", 7, 10); ("E0", 8, 8);
   ("E1", 7, 8); ("E2", 9, 8); ("E3", 11, 8); ("E4", 10, 8); ("E5", 12, 8);
   ("E6", 14, 11); ("E7", 13, 8); ("E8", 15, 8); ("E9", 14, 8); ("EA", 0, 9);
   ("EB", 1, 9); ("EC", 3, 9); ("ED", 2, 9); ("EE", 4, 9); ("EF", 5, 9);
   ("F0", 12, 1); ("F1", 6, 9); ("F2", 8, 9); ("F3", 7, 9); ("F4", 9, 9);
   ("F5", 11, 9); ("F6", 10, 9); ("F7", 6, 13); ("F8", 15, 11); ("F9", 13, 9);
   ("FA", 12, 9); ("FB", 14, 9); ("FC", 15, 9); ("FD", 13, 1); ("FE", 14, 1);
   ("FF", 8, 13); ("152", 14, 12); ("153", 15, 12); ("2018", 4, 13); ("2019", 5, 13);
   ("201A", 2, 14); ("201B", 7, 11); ("201C", 2, 13); ("201D", 3, 13); ("201E", 3, 14);
   ("201F", 8, 11); ("2020", 0, 10); ("2021", 0, 14); ("2022", 5, 10); ("20AC", 11, 13);
   ("FFFD", 0, 15)]%Z.
(** codegen/src_data/latin_aliases.txt, cut into pieces *)
Definition latin_aliases_txt : list string :=
  ["C0 41-300   # nfc: [C0, À],  nfd: [41-300, À]
C1 41-301   # nfc: [C1, Á],  nfd: [41-301, Á]
C2 41-302   # nfc: [C2, Â],  nfd: [41-302, Â]
C3 41-303   # nfc: [C3, Ã],  nfd: [41-303, Ã]
C4 41-308   # nfc: [C4, Ä],  nfd: [41-308, Ä]
C5 41-30A   # nfc: [C5, Å],  nfd: [41-30A, Å]
C7 43-327   # nfc: [C7, Ç],  nfd: [43-327, Ç]
C8 45-300   # nfc: [C8, È],  nfd: [45-300, È]
C9 45-301   # nfc: [C9, É],  nfd: [45-301, É]
CA 45-302   # nfc: [CA, Ê],  nfd: [45-302, Ê]
CB 45-308   # nfc: [CB, Ë],  nfd: [45-308, Ë]
CC 49-300   # nfc: [CC, Ì],  nfd: [49-300, Ì]
CD 49-301   # nfc: [CD, Í],  nfd: [49-301, Í]
CE 49-302   # nfc: [CE, Î],  nfd: [49-302, Î]
CF 49-308   # nfc: [CF, Ï],  nfd: [49-308, Ï]
D1 4E-303   # nfc: [D1, Ñ],  nfd: [4E-303, Ñ]
D2 4F-300   # nfc: [D2, Ò],  nfd: [4F-300, Ò]
D3 4F-301   # nfc: [D3, Ó],  nfd: [4F-301, Ó]
D4 4F-302   # nfc: [D4, Ô],  nfd: [4F-302, Ô]
D5 4F-303   # nfc: [D5, Õ],  nfd: [4F-303, Õ]
D6 4F-308   # nfc: [D6, Ö],  nfd: [4F-308, Ö]
D9 55-300   # nfc: [D9, Ù],  nfd: [55-300, Ù]
DA 55-301   # nfc: [DA, Ú],  nfd: [55-301, Ú]
DB 55-302   # nfc: [DB, Û],  nfd: [55-302, Û]
DC 55-308   # nfc: [DC, Ü],  nfd: [55-308, Ü]
DD 59-301   # nfc: [DD, Ý],  nfd: [59-301, Ý]
E0 61-300   # nfc: [E0, à],  nfd: [61-300, à]
E1 61-301   # nfc: [E1, á],  nfd: [61-301, á]
E2 61-302   # nfc: [E2, â],  nfd: [61-302, â]
E3 61-303   # nfc: [E3, ã],  nfd: [61-303, ã]
E4 61-308   # nfc: [E4, ä],  nfd: [61-308, ä]
E5 61-30A   # nfc: [E5, å],  nfd: [61-30A, å]
E7 63-327   # nfc: [E7, ç],  nfd: [63-327, ç]
E8 65-300   # nfc: [E8, è],  nfd: [65-300, è]
E9 65-301   # nfc: [E9, é],  nfd: [65-301, é]
EA 65-302   # nfc: [EA, ê],  nfd: [65-302, ê]
EB 65-308   # nfc: [EB, ë],  nfd: [65-308, ë]
EC 69-300   # nfc: [EC, ì],  nfd: [69-300, ì]
ED 69-301   # nfc: [ED, í],  nfd: [69-301, í]
EE 69-302   # nfc: [EE, î],  nfd: [69-302, î]
EF 69-308   # nfc: [EF, ï],  nfd: [69-308, ï]
F1 6E-303   # nfc: [F1, ñ],  nfd: [6E-303, ñ]
F2 6F-300   # nfc: [F2, ò],  nfd: [6F-300, ò]
F3 6F-301   # nfc: [F3, ó],  nfd: [6F-301, ó]
F4 6F-302   # nfc: [F4, ô],  nfd: [6F-302, ô]
F5 6F-303   # nfc: [F5, õ],  nfd: [6F-303, õ]
F6 6F-308   # nfc: [F6, ö],  nfd: [6F-308, ö]
F9 75-300   # nfc: [F9, ù],  nfd: [75-300, ù]
FA 75-301   # nfc: [FA, ú],  nfd: [75-301, ú]
FB 75-302   # nfc: [FB, û],  nfd: [75-302, û]
";
   "FC 75-308   # nfc: [FC, ü],  nfd: [75-308, ü]
FD 79-301   # nfc: [FD, ý],  nfd: [79-301, ý]
FF 79-308   # nfc: [FF, ÿ],  nfd: [79-308, ÿ]
"].
(** codegen/src_data/emoji_13_0_index.txt, cut into pieces *)
Definition emoji_index_txt : list string :=
  ["1f004
1f0cf
1f170
1f171
1f17e
1f17f
1f18e
1f191
1f192
1f193
1f194
1f195
1f196
1f197
1f198
1f199
1f19a
1f1e6-1f1e8
1f1e6-1f1e9
1f1e6-1f1ea
1f1e6-1f1eb
1f1e6-1f1ec
1f1e6-1f1ee
1f1e6-1f1f1
1f1e6-1f1f2
1f1e6-1f1f4
1f1e6-1f1f6
1f1e6-1f1f7
1f1e6-1f1f8
1f1e6-1f1f9
1f1e6-1f1fa
1f1e6-1f1fc
1f1e6-1f1fd
1f1e6-1f1ff
1f1e6
1f1e7-1f1e6
1f1e7-1f1e7
1f1e7-1f1e9
1f1e7-1f1ea
1f1e7-1f1eb
1f1e7-1f1ec
1f1e7-1f1ed
1f1e7-1f1ee
1f1e7-1f1ef
1f1e7-1f1f1
1f1e7-1f1f2
1f1e7-1f1f3
1f1e7-1f1f4
1f1e7-1f1f6
1f1e7-1f1f7
";
   "1f1e7-1f1f8
1f1e7-1f1f9
1f1e7-1f1fb
1f1e7-1f1fc
1f1e7-1f1fe
1f1e7-1f1ff
1f1e7
1f1e8-1f1e6
1f1e8-1f1e8
1f1e8-1f1e9
1f1e8-1f1eb
1f1e8-1f1ec
1f1e8-1f1ed
1f1e8-1f1ee
1f1e8-1f1f0
1f1e8-1f1f1
1f1e8-1f1f2
1f1e8-1f1f3
1f1e8-1f1f4
1f1e8-1f1f5
1f1e8-1f1f7
1f1e8-1f1fa
1f1e8-1f1fb
1f1e8-1f1fc
1f1e8-1f1fd
1f1e8-1f1fe
1f1e8-1f1ff
1f1e8
1f1e9-1f1ea
1f1e9-1f1ec
1f1e9-1f1ef
1f1e9-1f1f0
1f1e9-1f1f2
1f1e9-1f1f4
1f1e9-1f1ff
1f1e9
1f1ea-1f1e6
1f1ea-1f1e8
1f1ea-1f1ea
1f1ea-1f1ec
1f1ea-1f1ed
1f1ea-1f1f7
1f1ea-1f1f8
1f1ea-1f1f9
1f1ea-1f1fa
1f1ea
1f1eb-1f1ee
1f1eb-1f1ef
1f1eb-1f1f0
1f1eb-1f1f2
";
   "1f1eb-1f1f4
1f1eb-1f1f7
1f1eb
1f1ec-1f1e6
1f1ec-1f1e7
1f1ec-1f1e9
1f1ec-1f1ea
1f1ec-1f1eb
1f1ec-1f1ec
1f1ec-1f1ed
1f1ec-1f1ee
1f1ec-1f1f1
1f1ec-1f1f2
1f1ec-1f1f3
1f1ec-1f1f5
1f1ec-1f1f6
1f1ec-1f1f7
1f1ec-1f1f8
1f1ec-1f1f9
1f1ec-1f1fa
1f1ec-1f1fc
1f1ec-1f1fe
1f1ec
1f1ed-1f1f0
1f1ed-1f1f2
1f1ed-1f1f3
1f1ed-1f1f7
1f1ed-1f1f9
1f1ed-1f1fa
1f1ed
1f1ee-1f1e8
1f1ee-1f1e9
1f1ee-1f1ea
1f1ee-1f1f1
1f1ee-1f1f2
1f1ee-1f1f3
1f1ee-1f1f4
1f1ee-1f1f6
1f1ee-1f1f7
1f1ee-1f1f8
1f1ee-1f1f9
1f1ee
1f1ef-1f1ea
1f1ef-1f1f2
1f1ef-1f1f4
1f1ef-1f1f5
1f1ef
1f1f0-1f1ea
1f1f0-1f1ec
1f1f0-1f1ed
";
   "1f1f0-1f1ee
1f1f0-1f1f2
1f1f0-1f1f3
1f1f0-1f1f5
1f1f0-1f1f7
1f1f0-1f1fc
1f1f0-1f1fe
1f1f0-1f1ff
1f1f0
1f1f1-1f1e6
1f1f1-1f1e7
1f1f1-1f1e8
1f1f1-1f1ee
1f1f1-1f1f0
1f1f1-1f1f7
1f1f1-1f1f8
1f1f1-1f1f9
1f1f1-1f1fa
1f1f1-1f1fb
1f1f1-1f1fe
1f1f1
1f1f2-1f1e6
1f1f2-1f1e8
1f1f2-1f1e9
1f1f2-1f1ea
1f1f2-1f1eb
1f1f2-1f1ec
1f1f2-1f1ed
1f1f2-1f1f0
1f1f2-1f1f1
1f1f2-1f1f2
1f1f2-1f1f3
1f1f2-1f1f4
1f1f2-1f1f5
1f1f2-1f1f6
1f1f2-1f1f7
1f1f2-1f1f8
1f1f2-1f1f9
1f1f2-1f1fa
1f1f2-1f1fb
1f1f2-1f1fc
1f1f2-1f1fd
1f1f2-1f1fe
1f1f2-1f1ff
1f1f2
1f1f3-1f1e6
1f1f3-1f1e8
1f1f3-1f1ea
1f1f3-1f1eb
1f1f3-1f1ec
";
   "1f1f3-1f1ee
1f1f3-1f1f1
1f1f3-1f1f4
1f1f3-1f1f5
1f1f3-1f1f7
1f1f3-1f1fa
1f1f3-1f1ff
1f1f3
1f1f4-1f1f2
1f1f4
1f1f5-1f1e6
1f1f5-1f1ea
1f1f5-1f1eb
1f1f5-1f1ec
1f1f5-1f1ed
1f1f5-1f1f0
1f1f5-1f1f1
1f1f5-1f1f2
1f1f5-1f1f3
1f1f5-1f1f7
1f1f5-1f1f8
1f1f5-1f1f9
1f1f5-1f1fc
1f1f5-1f1fe
1f1f5
1f1f6-1f1e6
1f1f6
1f1f7-1f1ea
1f1f7-1f1f4
1f1f7-1f1f8
1f1f7-1f1fa
1f1f7-1f1fc
1f1f7
1f1f8-1f1e6
1f1f8-1f1e7
1f1f8-1f1e8
1f1f8-1f1e9
1f1f8-1f1ea
1f1f8-1f1ec
1f1f8-1f1ed
1f1f8-1f1ee
1f1f8-1f1ef
1f1f8-1f1f0
1f1f8-1f1f1
1f1f8-1f1f2
1f1f8-1f1f3
1f1f8-1f1f4
1f1f8-1f1f7
1f1f8-1f1f8
1f1f8-1f1f9
";
   "1f1f8-1f1fb
1f1f8-1f1fd
1f1f8-1f1fe
1f1f8-1f1ff
1f1f8
1f1f9-1f1e6
1f1f9-1f1e8
1f1f9-1f1e9
1f1f9-1f1eb
1f1f9-1f1ec
1f1f9-1f1ed
1f1f9-1f1ef
1f1f9-1f1f0
1f1f9-1f1f1
1f1f9-1f1f2
1f1f9-1f1f3
1f1f9-1f1f4
1f1f9-1f1f7
1f1f9-1f1f9
1f1f9-1f1fb
1f1f9-1f1fc
1f1f9-1f1ff
1f1f9
1f1fa-1f1e6
1f1fa-1f1ec
1f1fa-1f1f2
1f1fa-1f1f3
1f1fa-1f1f8
1f1fa-1f1fe
1f1fa-1f1ff
1f1fa
1f1fb-1f1e6
1f1fb-1f1e8
1f1fb-1f1ea
1f1fb-1f1ec
1f1fb-1f1ee
1f1fb-1f1f3
1f1fb-1f1fa
1f1fb
1f1fc-1f1eb
1f1fc-1f1f8
1f1fc
1f1fd-1f1f0
1f1fd
1f1fe-1f1ea
1f1fe-1f1f9
1f1fe
1f1ff-1f1e6
1f1ff-1f1f2
1f1ff-1f1fc
";
   "1f1ff
1f201
1f202
1f21a
1f22f
1f232
1f233
1f234
1f235
1f236
1f237
1f238
1f239
1f23a
1f250
1f251
1f300
1f301
1f302
1f303
1f304
1f305
1f306
1f307
1f308
1f309
1f30a
1f30b
1f30c
1f30d
1f30e
1f30f
1f310
1f311
1f312
1f313
1f314
1f315
1f316
1f317
1f318
1f319
1f31a
1f31b
1f31c
1f31d
1f31e
1f31f
1f320
1f321
";
   "1f324
1f325
1f326
1f327
1f328
1f329
1f32a
1f32b
1f32c
1f32d
1f32e
1f32f
1f330
1f331
1f332
1f333
1f334
1f335
1f336
1f337
1f338
1f339
1f33a
1f33b
1f33c
1f33d
1f33e
1f33f
1f340
1f341
1f342
1f343
1f344
1f345
1f346
1f347
1f348
1f349
1f34a
1f34b
1f34c
1f34d
1f34e
1f34f
1f350
1f351
1f352
1f353
1f354
1f355
";
   "1f356
1f357
1f358
1f359
1f35a
1f35b
1f35c
1f35d
1f35e
1f35f
1f360
1f361
1f362
1f363
1f364
1f365
1f366
1f367
1f368
1f369
1f36a
1f36b
1f36c
1f36d
1f36e
1f36f
1f370
1f371
1f372
1f373
1f374
1f375
1f376
1f377
1f378
1f379
1f37a
1f37b
1f37c
1f37d
1f37e
1f37f
1f380
1f381
1f382
1f383
1f384
1f385-1f3fb
1f385-1f3fc
1f385-1f3fd
";
   "1f385-1f3fe
1f385-1f3ff
1f385
1f386
1f387
1f388
1f389
1f38a
1f38b
1f38c
1f38d
1f38e
1f38f
1f390
1f391
1f392
1f393
1f396
1f397
1f399
1f39a
1f39b
1f39e
1f39f
1f3a0
1f3a1
1f3a2
1f3a3
1f3a4
1f3a5
1f3a6
1f3a7
1f3a8
1f3a9
1f3aa
1f3ab
1f3ac
1f3ad
1f3ae
1f3af
1f3b0
1f3b1
1f3b2
1f3b3
1f3b4
1f3b5
1f3b6
1f3b7
1f3b8
1f3b9
";
   "1f3ba
1f3bb
1f3bc
1f3bd
1f3be
1f3bf
1f3c0
1f3c1
1f3c2-1f3fb
1f3c2-1f3fc
1f3c2-1f3fd
1f3c2-1f3fe
1f3c2-1f3ff
1f3c2
1f3c3-1f3fb-200d-2640-fe0f
1f3c3-1f3fb-200d-2642-fe0f
1f3c3-1f3fb
1f3c3-1f3fc-200d-2640-fe0f
1f3c3-1f3fc-200d-2642-fe0f
1f3c3-1f3fc
1f3c3-1f3fd-200d-2640-fe0f
1f3c3-1f3fd-200d-2642-fe0f
1f3c3-1f3fd
1f3c3-1f3fe-200d-2640-fe0f
1f3c3-1f3fe-200d-2642-fe0f
1f3c3-1f3fe
1f3c3-1f3ff-200d-2640-fe0f
1f3c3-1f3ff-200d-2642-fe0f
1f3c3-1f3ff
1f3c3-200d-2640-fe0f
1f3c3-200d-2642-fe0f
1f3c3
1f3c4-1f3fb-200d-2640-fe0f
1f3c4-1f3fb-200d-2642-fe0f
1f3c4-1f3fb
1f3c4-1f3fc-200d-2640-fe0f
1f3c4-1f3fc-200d-2642-fe0f
1f3c4-1f3fc
1f3c4-1f3fd-200d-2640-fe0f
1f3c4-1f3fd-200d-2642-fe0f
1f3c4-1f3fd
1f3c4-1f3fe-200d-2640-fe0f
1f3c4-1f3fe-200d-2642-fe0f
1f3c4-1f3fe
1f3c4-1f3ff-200d-2640-fe0f
1f3c4-1f3ff-200d-2642-fe0f
1f3c4-1f3ff
1f3c4-200d-2640-fe0f
1f3c4-200d-2642-fe0f
1f3c4
";
   "1f3c5
1f3c6
1f3c7-1f3fb
1f3c7-1f3fc
1f3c7-1f3fd
1f3c7-1f3fe
1f3c7-1f3ff
1f3c7
1f3c8
1f3c9
1f3ca-1f3fb-200d-2640-fe0f
1f3ca-1f3fb-200d-2642-fe0f
1f3ca-1f3fb
1f3ca-1f3fc-200d-2640-fe0f
1f3ca-1f3fc-200d-2642-fe0f
1f3ca-1f3fc
1f3ca-1f3fd-200d-2640-fe0f
1f3ca-1f3fd-200d-2642-fe0f
1f3ca-1f3fd
1f3ca-1f3fe-200d-2640-fe0f
1f3ca-1f3fe-200d-2642-fe0f
1f3ca-1f3fe
1f3ca-1f3ff-200d-2640-fe0f
1f3ca-1f3ff-200d-2642-fe0f
1f3ca-1f3ff
1f3ca-200d-2640-fe0f
1f3ca-200d-2642-fe0f
1f3ca
1f3cb-1f3fb-200d-2640-fe0f
1f3cb-1f3fb-200d-2642-fe0f
1f3cb-1f3fb
1f3cb-1f3fc-200d-2640-fe0f
1f3cb-1f3fc-200d-2642-fe0f
1f3cb-1f3fc
1f3cb-1f3fd-200d-2640-fe0f
1f3cb-1f3fd-200d-2642-fe0f
1f3cb-1f3fd
1f3cb-1f3fe-200d-2640-fe0f
1f3cb-1f3fe-200d-2642-fe0f
1f3cb-1f3fe
1f3cb-1f3ff-200d-2640-fe0f
1f3cb-1f3ff-200d-2642-fe0f
1f3cb-1f3ff
1f3cb-fe0f-200d-2640-fe0f
1f3cb-fe0f-200d-2642-fe0f
1f3cb
1f3cc-1f3fb-200d-2640-fe0f
1f3cc-1f3fb-200d-2642-fe0f
1f3cc-1f3fb
1f3cc-1f3fc-200d-2640-fe0f
";
   "1f3cc-1f3fc-200d-2642-fe0f
1f3cc-1f3fc
1f3cc-1f3fd-200d-2640-fe0f
1f3cc-1f3fd-200d-2642-fe0f
1f3cc-1f3fd
1f3cc-1f3fe-200d-2640-fe0f
1f3cc-1f3fe-200d-2642-fe0f
1f3cc-1f3fe
1f3cc-1f3ff-200d-2640-fe0f
1f3cc-1f3ff-200d-2642-fe0f
1f3cc-1f3ff
1f3cc-fe0f-200d-2640-fe0f
1f3cc-fe0f-200d-2642-fe0f
1f3cc
1f3cd
1f3ce
1f3cf
1f3d0
1f3d1
1f3d2
1f3d3
1f3d4
1f3d5
1f3d6
1f3d7
1f3d8
1f3d9
1f3da
1f3db
1f3dc
1f3dd
1f3de
1f3df
1f3e0
1f3e1
1f3e2
1f3e3
1f3e4
1f3e5
1f3e6
1f3e7
1f3e8
1f3e9
1f3ea
1f3eb
1f3ec
1f3ed
1f3ee
1f3ef
1f3f0
";
   "1f3f3-fe0f-200d-1f308
1f3f3-fe0f-200d-26a7-fe0f
1f3f3
1f3f4-200d-2620-fe0f
1f3f4-e0067-e0062-e0065-e006e-e0067-e007f
1f3f4-e0067-e0062-e0073-e0063-e0074-e007f
1f3f4-e0067-e0062-e0077-e006c-e0073-e007f
1f3f4
1f3f5
1f3f7
1f3f8
1f3f9
1f3fa
1f3fb
1f3fc
1f3fd
1f3fe
1f3ff
1f400
1f401
1f402
1f403
1f404
1f405
1f406
1f407
1f408-200d-2b1b
1f408
1f409
1f40a
1f40b
1f40c
1f40d
1f40e
1f40f
1f410
1f411
1f412
1f413
1f414
1f415-200d-1f9ba
1f415
1f416
1f417
1f418
1f419
1f41a
1f41b
1f41c
1f41d
";
   "1f41e
1f41f
1f420
1f421
1f422
1f423
1f424
1f425
1f426
1f427
1f428
1f429
1f42a
1f42b
1f42c
1f42d
1f42e
1f42f
1f430
1f431
1f432
1f433
1f434
1f435
1f436
1f437
1f438
1f439
1f43a
1f43b-200d-2744-fe0f
1f43b
1f43c
1f43d
1f43e
1f43f
1f440
1f441-200d-1f5e8
1f441
1f442-1f3fb
1f442-1f3fc
1f442-1f3fd
1f442-1f3fe
1f442-1f3ff
1f442
1f443-1f3fb
1f443-1f3fc
1f443-1f3fd
1f443-1f3fe
1f443-1f3ff
1f443
";
   "1f444
1f445
1f446-1f3fb
1f446-1f3fc
1f446-1f3fd
1f446-1f3fe
1f446-1f3ff
1f446
1f447-1f3fb
1f447-1f3fc
1f447-1f3fd
1f447-1f3fe
1f447-1f3ff
1f447
1f448-1f3fb
1f448-1f3fc
1f448-1f3fd
1f448-1f3fe
1f448-1f3ff
1f448
1f449-1f3fb
1f449-1f3fc
1f449-1f3fd
1f449-1f3fe
1f449-1f3ff
1f449
1f44a-1f3fb
1f44a-1f3fc
1f44a-1f3fd
1f44a-1f3fe
1f44a-1f3ff
1f44a
1f44b-1f3fb
1f44b-1f3fc
1f44b-1f3fd
1f44b-1f3fe
1f44b-1f3ff
1f44b
1f44c-1f3fb
1f44c-1f3fc
1f44c-1f3fd
1f44c-1f3fe
1f44c-1f3ff
1f44c
1f44d-1f3fb
1f44d-1f3fc
1f44d-1f3fd
1f44d-1f3fe
1f44d-1f3ff
1f44d
";
   "1f44e-1f3fb
1f44e-1f3fc
1f44e-1f3fd
1f44e-1f3fe
1f44e-1f3ff
1f44e
1f44f-1f3fb
1f44f-1f3fc
1f44f-1f3fd
1f44f-1f3fe
1f44f-1f3ff
1f44f
1f450-1f3fb
1f450-1f3fc
1f450-1f3fd
1f450-1f3fe
1f450-1f3ff
1f450
1f451
1f452
1f453
1f454
1f455
1f456
1f457
1f458
1f459
1f45a
1f45b
1f45c
1f45d
1f45e
1f45f
1f460
1f461
1f462
1f463
1f464
1f465
1f466-1f3fb
1f466-1f3fc
1f466-1f3fd
1f466-1f3fe
1f466-1f3ff
1f466
1f467-1f3fb
1f467-1f3fc
1f467-1f3fd
1f467-1f3fe
1f467-1f3ff
";
   "1f467
1f468-1f3fb-200d-1f33e
1f468-1f3fb-200d-1f373
1f468-1f3fb-200d-1f37c
1f468-1f3fb-200d-1f384
1f468-1f3fb-200d-1f393
1f468-1f3fb-200d-1f3a4
1f468-1f3fb-200d-1f3a8
1f468-1f3fb-200d-1f3eb
1f468-1f3fb-200d-1f3ed
1f468-1f3fb-200d-1f4bb
1f468-1f3fb-200d-1f4bc
1f468-1f3fb-200d-1f527
1f468-1f3fb-200d-1f52c
1f468-1f3fb-200d-1f680
1f468-1f3fb-200d-1f692
1f468-1f3fb-200d-1f91d-200d-1f468-1f3fc
1f468-1f3fb-200d-1f91d-200d-1f468-1f3fd
1f468-1f3fb-200d-1f91d-200d-1f468-1f3fe
1f468-1f3fb-200d-1f91d-200d-1f468-1f3ff
1f468-1f3fb-200d-1f9af
1f468-1f3fb-200d-1f9b0
1f468-1f3fb-200d-1f9b1
1f468-1f3fb-200d-1f9b2
1f468-1f3fb-200d-1f9b3
1f468-1f3fb-200d-1f9bc
1f468-1f3fb-200d-1f9bd
1f468-1f3fb-200d-2695-fe0f
1f468-1f3fb-200d-2696-fe0f
1f468-1f3fb-200d-2708-fe0f
1f468-1f3fb
1f468-1f3fc-200d-1f33e
1f468-1f3fc-200d-1f373
1f468-1f3fc-200d-1f37c
1f468-1f3fc-200d-1f384
1f468-1f3fc-200d-1f393
1f468-1f3fc-200d-1f3a4
1f468-1f3fc-200d-1f3a8
1f468-1f3fc-200d-1f3eb
1f468-1f3fc-200d-1f3ed
1f468-1f3fc-200d-1f4bb
1f468-1f3fc-200d-1f4bc
1f468-1f3fc-200d-1f527
1f468-1f3fc-200d-1f52c
1f468-1f3fc-200d-1f680
1f468-1f3fc-200d-1f692
1f468-1f3fc-200d-1f91d-200d-1f468-1f3fb
1f468-1f3fc-200d-1f91d-200d-1f468-1f3fd
1f468-1f3fc-200d-1f91d-200d-1f468-1f3fe
1f468-1f3fc-200d-1f91d-200d-1f468-1f3ff
";
   "1f468-1f3fc-200d-1f9af
1f468-1f3fc-200d-1f9b0
1f468-1f3fc-200d-1f9b1
1f468-1f3fc-200d-1f9b2
1f468-1f3fc-200d-1f9b3
1f468-1f3fc-200d-1f9bc
1f468-1f3fc-200d-1f9bd
1f468-1f3fc-200d-2695-fe0f
1f468-1f3fc-200d-2696-fe0f
1f468-1f3fc-200d-2708-fe0f
1f468-1f3fc
1f468-1f3fd-200d-1f33e
1f468-1f3fd-200d-1f373
1f468-1f3fd-200d-1f37c
1f468-1f3fd-200d-1f384
1f468-1f3fd-200d-1f393
1f468-1f3fd-200d-1f3a4
1f468-1f3fd-200d-1f3a8
1f468-1f3fd-200d-1f3eb
1f468-1f3fd-200d-1f3ed
1f468-1f3fd-200d-1f4bb
1f468-1f3fd-200d-1f4bc
1f468-1f3fd-200d-1f527
1f468-1f3fd-200d-1f52c
1f468-1f3fd-200d-1f680
1f468-1f3fd-200d-1f692
1f468-1f3fd-200d-1f91d-200d-1f468-1f3fb
1f468-1f3fd-200d-1f91d-200d-1f468-1f3fc
1f468-1f3fd-200d-1f91d-200d-1f468-1f3fe
1f468-1f3fd-200d-1f91d-200d-1f468-1f3ff
1f468-1f3fd-200d-1f9af
1f468-1f3fd-200d-1f9b0
1f468-1f3fd-200d-1f9b1
1f468-1f3fd-200d-1f9b2
1f468-1f3fd-200d-1f9b3
1f468-1f3fd-200d-1f9bc
1f468-1f3fd-200d-1f9bd
1f468-1f3fd-200d-2695-fe0f
1f468-1f3fd-200d-2696-fe0f
1f468-1f3fd-200d-2708-fe0f
1f468-1f3fd
1f468-1f3fe-200d-1f33e
1f468-1f3fe-200d-1f373
1f468-1f3fe-200d-1f37c
1f468-1f3fe-200d-1f384
1f468-1f3fe-200d-1f393
1f468-1f3fe-200d-1f3a4
1f468-1f3fe-200d-1f3a8
1f468-1f3fe-200d-1f3eb
1f468-1f3fe-200d-1f3ed
";
   "1f468-1f3fe-200d-1f4bb
1f468-1f3fe-200d-1f4bc
1f468-1f3fe-200d-1f527
1f468-1f3fe-200d-1f52c
1f468-1f3fe-200d-1f680
1f468-1f3fe-200d-1f692
1f468-1f3fe-200d-1f91d-200d-1f468-1f3fb
1f468-1f3fe-200d-1f91d-200d-1f468-1f3fc
1f468-1f3fe-200d-1f91d-200d-1f468-1f3fd
1f468-1f3fe-200d-1f91d-200d-1f468-1f3ff
1f468-1f3fe-200d-1f9af
1f468-1f3fe-200d-1f9b0
1f468-1f3fe-200d-1f9b1
1f468-1f3fe-200d-1f9b2
1f468-1f3fe-200d-1f9b3
1f468-1f3fe-200d-1f9bc
1f468-1f3fe-200d-1f9bd
1f468-1f3fe-200d-2695-fe0f
1f468-1f3fe-200d-2696-fe0f
1f468-1f3fe-200d-2708-fe0f
1f468-1f3fe
1f468-1f3ff-200d-1f33e
1f468-1f3ff-200d-1f373
1f468-1f3ff-200d-1f37c
1f468-1f3ff-200d-1f384
1f468-1f3ff-200d-1f393
1f468-1f3ff-200d-1f3a4
1f468-1f3ff-200d-1f3a8
1f468-1f3ff-200d-1f3eb
1f468-1f3ff-200d-1f3ed
1f468-1f3ff-200d-1f4bb
1f468-1f3ff-200d-1f4bc
1f468-1f3ff-200d-1f527
1f468-1f3ff-200d-1f52c
1f468-1f3ff-200d-1f680
1f468-1f3ff-200d-1f692
1f468-1f3ff-200d-1f91d-200d-1f468-1f3fb
1f468-1f3ff-200d-1f91d-200d-1f468-1f3fc
1f468-1f3ff-200d-1f91d-200d-1f468-1f3fd
1f468-1f3ff-200d-1f91d-200d-1f468-1f3fe
1f468-1f3ff-200d-1f9af
1f468-1f3ff-200d-1f9b0
1f468-1f3ff-200d-1f9b1
1f468-1f3ff-200d-1f9b2
1f468-1f3ff-200d-1f9b3
1f468-1f3ff-200d-1f9bc
1f468-1f3ff-200d-1f9bd
1f468-1f3ff-200d-2695-fe0f
1f468-1f3ff-200d-2696-fe0f
1f468-1f3ff-200d-2708-fe0f
";
   "1f468-1f3ff
1f468-200d-1f33e
1f468-200d-1f373
1f468-200d-1f37c
1f468-200d-1f384
1f468-200d-1f393
1f468-200d-1f3a4
1f468-200d-1f3a8
1f468-200d-1f3eb
1f468-200d-1f3ed
1f468-200d-1f466-200d-1f466
1f468-200d-1f466
1f468-200d-1f467-200d-1f466
1f468-200d-1f467-200d-1f467
1f468-200d-1f467
1f468-200d-1f468-200d-1f466-200d-1f466
1f468-200d-1f468-200d-1f466
1f468-200d-1f468-200d-1f467-200d-1f466
1f468-200d-1f468-200d-1f467-200d-1f467
1f468-200d-1f468-200d-1f467
1f468-200d-1f469-200d-1f466-200d-1f466
1f468-200d-1f469-200d-1f466
1f468-200d-1f469-200d-1f467-200d-1f466
1f468-200d-1f469-200d-1f467-200d-1f467
1f468-200d-1f469-200d-1f467
1f468-200d-1f4bb
1f468-200d-1f4bc
1f468-200d-1f527
1f468-200d-1f52c
1f468-200d-1f680
1f468-200d-1f692
1f468-200d-1f9af
1f468-200d-1f9b0
1f468-200d-1f9b1
1f468-200d-1f9b2
1f468-200d-1f9b3
1f468-200d-1f9bc
1f468-200d-1f9bd
1f468-200d-2695-fe0f
1f468-200d-2696-fe0f
1f468-200d-2708-fe0f
1f468-200d-2764-fe0f-200d-1f468
1f468-200d-2764-fe0f-200d-1f48b-200d-1f468
1f468
1f469-1f3fb-200d-1f33e
1f469-1f3fb-200d-1f373
1f469-1f3fb-200d-1f37c
1f469-1f3fb-200d-1f384
1f469-1f3fb-200d-1f393
1f469-1f3fb-200d-1f3a4
";
   "1f469-1f3fb-200d-1f3a8
1f469-1f3fb-200d-1f3eb
1f469-1f3fb-200d-1f3ed
1f469-1f3fb-200d-1f4bb
1f469-1f3fb-200d-1f4bc
1f469-1f3fb-200d-1f527
1f469-1f3fb-200d-1f52c
1f469-1f3fb-200d-1f680
1f469-1f3fb-200d-1f692
1f469-1f3fb-200d-1f91d-200d-1f468-1f3fc
1f469-1f3fb-200d-1f91d-200d-1f468-1f3fd
1f469-1f3fb-200d-1f91d-200d-1f468-1f3fe
1f469-1f3fb-200d-1f91d-200d-1f468-1f3ff
1f469-1f3fb-200d-1f91d-200d-1f469-1f3fc
1f469-1f3fb-200d-1f91d-200d-1f469-1f3fd
1f469-1f3fb-200d-1f91d-200d-1f469-1f3fe
1f469-1f3fb-200d-1f91d-200d-1f469-1f3ff
1f469-1f3fb-200d-1f9af
1f469-1f3fb-200d-1f9b0
1f469-1f3fb-200d-1f9b1
1f469-1f3fb-200d-1f9b2
1f469-1f3fb-200d-1f9b3
1f469-1f3fb-200d-1f9bc
1f469-1f3fb-200d-1f9bd
1f469-1f3fb-200d-2695-fe0f
1f469-1f3fb-200d-2696-fe0f
1f469-1f3fb-200d-2708-fe0f
1f469-1f3fb
1f469-1f3fc-200d-1f33e
1f469-1f3fc-200d-1f373
1f469-1f3fc-200d-1f37c
1f469-1f3fc-200d-1f384
1f469-1f3fc-200d-1f393
1f469-1f3fc-200d-1f3a4
1f469-1f3fc-200d-1f3a8
1f469-1f3fc-200d-1f3eb
1f469-1f3fc-200d-1f3ed
1f469-1f3fc-200d-1f4bb
1f469-1f3fc-200d-1f4bc
1f469-1f3fc-200d-1f527
1f469-1f3fc-200d-1f52c
1f469-1f3fc-200d-1f680
1f469-1f3fc-200d-1f692
1f469-1f3fc-200d-1f91d-200d-1f468-1f3fb
1f469-1f3fc-200d-1f91d-200d-1f468-1f3fd
1f469-1f3fc-200d-1f91d-200d-1f468-1f3fe
1f469-1f3fc-200d-1f91d-200d-1f468-1f3ff
1f469-1f3fc-200d-1f91d-200d-1f469-1f3fb
1f469-1f3fc-200d-1f91d-200d-1f469-1f3fd
1f469-1f3fc-200d-1f91d-200d-1f469-1f3fe
";
   "1f469-1f3fc-200d-1f91d-200d-1f469-1f3ff
1f469-1f3fc-200d-1f9af
1f469-1f3fc-200d-1f9b0
1f469-1f3fc-200d-1f9b1
1f469-1f3fc-200d-1f9b2
1f469-1f3fc-200d-1f9b3
1f469-1f3fc-200d-1f9bc
1f469-1f3fc-200d-1f9bd
1f469-1f3fc-200d-2695-fe0f
1f469-1f3fc-200d-2696-fe0f
1f469-1f3fc-200d-2708-fe0f
1f469-1f3fc
1f469-1f3fd-200d-1f33e
1f469-1f3fd-200d-1f373
1f469-1f3fd-200d-1f37c
1f469-1f3fd-200d-1f384
1f469-1f3fd-200d-1f393
1f469-1f3fd-200d-1f3a4
1f469-1f3fd-200d-1f3a8
1f469-1f3fd-200d-1f3eb
1f469-1f3fd-200d-1f3ed
1f469-1f3fd-200d-1f4bb
1f469-1f3fd-200d-1f4bc
1f469-1f3fd-200d-1f527
1f469-1f3fd-200d-1f52c
1f469-1f3fd-200d-1f680
1f469-1f3fd-200d-1f692
1f469-1f3fd-200d-1f91d-200d-1f468-1f3fb
1f469-1f3fd-200d-1f91d-200d-1f468-1f3fc
1f469-1f3fd-200d-1f91d-200d-1f468-1f3fe
1f469-1f3fd-200d-1f91d-200d-1f468-1f3ff
1f469-1f3fd-200d-1f91d-200d-1f469-1f3fb
1f469-1f3fd-200d-1f91d-200d-1f469-1f3fc
1f469-1f3fd-200d-1f91d-200d-1f469-1f3fe
1f469-1f3fd-200d-1f91d-200d-1f469-1f3ff
1f469-1f3fd-200d-1f9af
1f469-1f3fd-200d-1f9b0
1f469-1f3fd-200d-1f9b1
1f469-1f3fd-200d-1f9b2
1f469-1f3fd-200d-1f9b3
1f469-1f3fd-200d-1f9bc
1f469-1f3fd-200d-1f9bd
1f469-1f3fd-200d-2695-fe0f
1f469-1f3fd-200d-2696-fe0f
1f469-1f3fd-200d-2708-fe0f
1f469-1f3fd
1f469-1f3fe-200d-1f33e
1f469-1f3fe-200d-1f373
1f469-1f3fe-200d-1f37c
1f469-1f3fe-200d-1f384
";
   "1f469-1f3fe-200d-1f393
1f469-1f3fe-200d-1f3a4
1f469-1f3fe-200d-1f3a8
1f469-1f3fe-200d-1f3eb
1f469-1f3fe-200d-1f3ed
1f469-1f3fe-200d-1f4bb
1f469-1f3fe-200d-1f4bc
1f469-1f3fe-200d-1f527
1f469-1f3fe-200d-1f52c
1f469-1f3fe-200d-1f680
1f469-1f3fe-200d-1f692
1f469-1f3fe-200d-1f91d-200d-1f468-1f3fb
1f469-1f3fe-200d-1f91d-200d-1f468-1f3fc
1f469-1f3fe-200d-1f91d-200d-1f468-1f3fd
1f469-1f3fe-200d-1f91d-200d-1f468-1f3ff
1f469-1f3fe-200d-1f91d-200d-1f469-1f3fb
1f469-1f3fe-200d-1f91d-200d-1f469-1f3fc
1f469-1f3fe-200d-1f91d-200d-1f469-1f3fd
1f469-1f3fe-200d-1f91d-200d-1f469-1f3ff
1f469-1f3fe-200d-1f9af
1f469-1f3fe-200d-1f9b0
1f469-1f3fe-200d-1f9b1
1f469-1f3fe-200d-1f9b2
1f469-1f3fe-200d-1f9b3
1f469-1f3fe-200d-1f9bc
1f469-1f3fe-200d-1f9bd
1f469-1f3fe-200d-2695-fe0f
1f469-1f3fe-200d-2696-fe0f
1f469-1f3fe-200d-2708-fe0f
1f469-1f3fe
1f469-1f3ff-200d-1f33e
1f469-1f3ff-200d-1f373
1f469-1f3ff-200d-1f37c
1f469-1f3ff-200d-1f384
1f469-1f3ff-200d-1f393
1f469-1f3ff-200d-1f3a4
1f469-1f3ff-200d-1f3a8
1f469-1f3ff-200d-1f3eb
1f469-1f3ff-200d-1f3ed
1f469-1f3ff-200d-1f4bb
1f469-1f3ff-200d-1f4bc
1f469-1f3ff-200d-1f527
1f469-1f3ff-200d-1f52c
1f469-1f3ff-200d-1f680
1f469-1f3ff-200d-1f692
1f469-1f3ff-200d-1f91d-200d-1f468-1f3fb
1f469-1f3ff-200d-1f91d-200d-1f468-1f3fc
1f469-1f3ff-200d-1f91d-200d-1f468-1f3fd
1f469-1f3ff-200d-1f91d-200d-1f468-1f3fe
1f469-1f3ff-200d-1f91d-200d-1f469-1f3fb
";
   "1f469-1f3ff-200d-1f91d-200d-1f469-1f3fc
1f469-1f3ff-200d-1f91d-200d-1f469-1f3fd
1f469-1f3ff-200d-1f91d-200d-1f469-1f3fe
1f469-1f3ff-200d-1f9af
1f469-1f3ff-200d-1f9b0
1f469-1f3ff-200d-1f9b1
1f469-1f3ff-200d-1f9b2
1f469-1f3ff-200d-1f9b3
1f469-1f3ff-200d-1f9bc
1f469-1f3ff-200d-1f9bd
1f469-1f3ff-200d-2695-fe0f
1f469-1f3ff-200d-2696-fe0f
1f469-1f3ff-200d-2708-fe0f
1f469-1f3ff
1f469-200d-1f33e
1f469-200d-1f373
1f469-200d-1f37c
1f469-200d-1f384
1f469-200d-1f393
1f469-200d-1f3a4
1f469-200d-1f3a8
1f469-200d-1f3eb
1f469-200d-1f3ed
1f469-200d-1f466-200d-1f466
1f469-200d-1f466
1f469-200d-1f467-200d-1f466
1f469-200d-1f467-200d-1f467
1f469-200d-1f467
1f469-200d-1f469-200d-1f466-200d-1f466
1f469-200d-1f469-200d-1f466
1f469-200d-1f469-200d-1f467-200d-1f466
1f469-200d-1f469-200d-1f467-200d-1f467
1f469-200d-1f469-200d-1f467
1f469-200d-1f4bb
1f469-200d-1f4bc
1f469-200d-1f527
1f469-200d-1f52c
1f469-200d-1f680
1f469-200d-1f692
1f469-200d-1f9af
1f469-200d-1f9b0
1f469-200d-1f9b1
1f469-200d-1f9b2
1f469-200d-1f9b3
1f469-200d-1f9bc
1f469-200d-1f9bd
1f469-200d-2695-fe0f
1f469-200d-2696-fe0f
1f469-200d-2708-fe0f
1f469-200d-2764-fe0f-200d-1f468
";
   "1f469-200d-2764-fe0f-200d-1f469
1f469-200d-2764-fe0f-200d-1f48b-200d-1f468
1f469-200d-2764-fe0f-200d-1f48b-200d-1f469
1f469
1f46a
1f46b-1f3fb
1f46b-1f3fc
1f46b-1f3fd
1f46b-1f3fe
1f46b-1f3ff
1f46b
1f46c-1f3fb
1f46c-1f3fc
1f46c-1f3fd
1f46c-1f3fe
1f46c-1f3ff
1f46c
1f46d-1f3fb
1f46d-1f3fc
1f46d-1f3fd
1f46d-1f3fe
1f46d-1f3ff
1f46d
1f46e-1f3fb-200d-2640-fe0f
1f46e-1f3fb-200d-2642-fe0f
1f46e-1f3fb
1f46e-1f3fc-200d-2640-fe0f
1f46e-1f3fc-200d-2642-fe0f
1f46e-1f3fc
1f46e-1f3fd-200d-2640-fe0f
1f46e-1f3fd-200d-2642-fe0f
1f46e-1f3fd
1f46e-1f3fe-200d-2640-fe0f
1f46e-1f3fe-200d-2642-fe0f
1f46e-1f3fe
1f46e-1f3ff-200d-2640-fe0f
1f46e-1f3ff-200d-2642-fe0f
1f46e-1f3ff
1f46e-200d-2640-fe0f
1f46e-200d-2642-fe0f
1f46e
1f46f-200d-2640-fe0f
1f46f-200d-2642-fe0f
1f46f
1f470-1f3fb-200d-2640-fe0f
1f470-1f3fb-200d-2642-fe0f
1f470-1f3fb
1f470-1f3fc-200d-2640-fe0f
1f470-1f3fc-200d-2642-fe0f
1f470-1f3fc
";
   "1f470-1f3fd-200d-2640-fe0f
1f470-1f3fd-200d-2642-fe0f
1f470-1f3fd
1f470-1f3fe-200d-2640-fe0f
1f470-1f3fe-200d-2642-fe0f
1f470-1f3fe
1f470-1f3ff-200d-2640-fe0f
1f470-1f3ff-200d-2642-fe0f
1f470-1f3ff
1f470-200d-2640-fe0f
1f470-200d-2642-fe0f
1f470
1f471-1f3fb-200d-2640-fe0f
1f471-1f3fb-200d-2642-fe0f
1f471-1f3fb
1f471-1f3fc-200d-2640-fe0f
1f471-1f3fc-200d-2642-fe0f
1f471-1f3fc
1f471-1f3fd-200d-2640-fe0f
1f471-1f3fd-200d-2642-fe0f
1f471-1f3fd
1f471-1f3fe-200d-2640-fe0f
1f471-1f3fe-200d-2642-fe0f
1f471-1f3fe
1f471-1f3ff-200d-2640-fe0f
1f471-1f3ff-200d-2642-fe0f
1f471-1f3ff
1f471-200d-2640-fe0f
1f471-200d-2642-fe0f
1f471
1f472-1f3fb
1f472-1f3fc
1f472-1f3fd
1f472-1f3fe
1f472-1f3ff
1f472
1f473-1f3fb-200d-2640-fe0f
1f473-1f3fb-200d-2642-fe0f
1f473-1f3fb
1f473-1f3fc-200d-2640-fe0f
1f473-1f3fc-200d-2642-fe0f
1f473-1f3fc
1f473-1f3fd-200d-2640-fe0f
1f473-1f3fd-200d-2642-fe0f
1f473-1f3fd
1f473-1f3fe-200d-2640-fe0f
1f473-1f3fe-200d-2642-fe0f
1f473-1f3fe
1f473-1f3ff-200d-2640-fe0f
1f473-1f3ff-200d-2642-fe0f
";
   "1f473-1f3ff
1f473-200d-2640-fe0f
1f473-200d-2642-fe0f
1f473
1f474-1f3fb
1f474-1f3fc
1f474-1f3fd
1f474-1f3fe
1f474-1f3ff
1f474
1f475-1f3fb
1f475-1f3fc
1f475-1f3fd
1f475-1f3fe
1f475-1f3ff
1f475
1f476-1f3fb
1f476-1f3fc
1f476-1f3fd
1f476-1f3fe
1f476-1f3ff
1f476
1f477-1f3fb-200d-2640-fe0f
1f477-1f3fb-200d-2642-fe0f
1f477-1f3fb
1f477-1f3fc-200d-2640-fe0f
1f477-1f3fc-200d-2642-fe0f
1f477-1f3fc
1f477-1f3fd-200d-2640-fe0f
1f477-1f3fd-200d-2642-fe0f
1f477-1f3fd
1f477-1f3fe-200d-2640-fe0f
1f477-1f3fe-200d-2642-fe0f
1f477-1f3fe
1f477-1f3ff-200d-2640-fe0f
1f477-1f3ff-200d-2642-fe0f
1f477-1f3ff
1f477-200d-2640-fe0f
1f477-200d-2642-fe0f
1f477
1f478-1f3fb
1f478-1f3fc
1f478-1f3fd
1f478-1f3fe
1f478-1f3ff
1f478
1f479
1f47a
1f47b
1f47c-1f3fb
";
   "1f47c-1f3fc
1f47c-1f3fd
1f47c-1f3fe
1f47c-1f3ff
1f47c
1f47d
1f47e
1f47f
1f480
1f481-1f3fb-200d-2640-fe0f
1f481-1f3fb-200d-2642-fe0f
1f481-1f3fb
1f481-1f3fc-200d-2640-fe0f
1f481-1f3fc-200d-2642-fe0f
1f481-1f3fc
1f481-1f3fd-200d-2640-fe0f
1f481-1f3fd-200d-2642-fe0f
1f481-1f3fd
1f481-1f3fe-200d-2640-fe0f
1f481-1f3fe-200d-2642-fe0f
1f481-1f3fe
1f481-1f3ff-200d-2640-fe0f
1f481-1f3ff-200d-2642-fe0f
1f481-1f3ff
1f481-200d-2640-fe0f
1f481-200d-2642-fe0f
1f481
1f482-1f3fb-200d-2640-fe0f
1f482-1f3fb-200d-2642-fe0f
1f482-1f3fb
1f482-1f3fc-200d-2640-fe0f
1f482-1f3fc-200d-2642-fe0f
1f482-1f3fc
1f482-1f3fd-200d-2640-fe0f
1f482-1f3fd-200d-2642-fe0f
1f482-1f3fd
1f482-1f3fe-200d-2640-fe0f
1f482-1f3fe-200d-2642-fe0f
1f482-1f3fe
1f482-1f3ff-200d-2640-fe0f
1f482-1f3ff-200d-2642-fe0f
1f482-1f3ff
1f482-200d-2640-fe0f
1f482-200d-2642-fe0f
1f482
1f483-1f3fb
1f483-1f3fc
1f483-1f3fd
1f483-1f3fe
1f483-1f3ff
";
   "1f483
1f484
1f485-1f3fb
1f485-1f3fc
1f485-1f3fd
1f485-1f3fe
1f485-1f3ff
1f485
1f486-1f3fb-200d-2640-fe0f
1f486-1f3fb-200d-2642-fe0f
1f486-1f3fb
1f486-1f3fc-200d-2640-fe0f
1f486-1f3fc-200d-2642-fe0f
1f486-1f3fc
1f486-1f3fd-200d-2640-fe0f
1f486-1f3fd-200d-2642-fe0f
1f486-1f3fd
1f486-1f3fe-200d-2640-fe0f
1f486-1f3fe-200d-2642-fe0f
1f486-1f3fe
1f486-1f3ff-200d-2640-fe0f
1f486-1f3ff-200d-2642-fe0f
1f486-1f3ff
1f486-200d-2640-fe0f
1f486-200d-2642-fe0f
1f486
1f487-1f3fb-200d-2640-fe0f
1f487-1f3fb-200d-2642-fe0f
1f487-1f3fb
1f487-1f3fc-200d-2640-fe0f
1f487-1f3fc-200d-2642-fe0f
1f487-1f3fc
1f487-1f3fd-200d-2640-fe0f
1f487-1f3fd-200d-2642-fe0f
1f487-1f3fd
1f487-1f3fe-200d-2640-fe0f
1f487-1f3fe-200d-2642-fe0f
1f487-1f3fe
1f487-1f3ff-200d-2640-fe0f
1f487-1f3ff-200d-2642-fe0f
1f487-1f3ff
1f487-200d-2640-fe0f
1f487-200d-2642-fe0f
1f487
1f488
1f489
1f48a
1f48b
1f48c
1f48d
";
   "1f48e
1f48f
1f490
1f491
1f492
1f493
1f494
1f495
1f496
1f497
1f498
1f499
1f49a
1f49b
1f49c
1f49d
1f49e
1f49f
1f4a0
1f4a1
1f4a2
1f4a3
1f4a4
1f4a5
1f4a6
1f4a7
1f4a8
1f4a9
1f4aa-1f3fb
1f4aa-1f3fc
1f4aa-1f3fd
1f4aa-1f3fe
1f4aa-1f3ff
1f4aa
1f4ab
1f4ac
1f4ad
1f4ae
1f4af
1f4b0
1f4b1
1f4b2
1f4b3
1f4b4
1f4b5
1f4b6
1f4b7
1f4b8
1f4b9
1f4ba
";
   "1f4bb
1f4bc
1f4bd
1f4be
1f4bf
1f4c0
1f4c1
1f4c2
1f4c3
1f4c4
1f4c5
1f4c6
1f4c7
1f4c8
1f4c9
1f4ca
1f4cb
1f4cc
1f4cd
1f4ce
1f4cf
1f4d0
1f4d1
1f4d2
1f4d3
1f4d4
1f4d5
1f4d6
1f4d7
1f4d8
1f4d9
1f4da
1f4db
1f4dc
1f4dd
1f4de
1f4df
1f4e0
1f4e1
1f4e2
1f4e3
1f4e4
1f4e5
1f4e6
1f4e7
1f4e8
1f4e9
1f4ea
1f4eb
1f4ec
";
   "1f4ed
1f4ee
1f4ef
1f4f0
1f4f1
1f4f2
1f4f3
1f4f4
1f4f5
1f4f6
1f4f7
1f4f8
1f4f9
1f4fa
1f4fb
1f4fc
1f4fd
1f4ff
1f500
1f501
1f502
1f503
1f504
1f505
1f506
1f507
1f508
1f509
1f50a
1f50b
1f50c
1f50d
1f50e
1f50f
1f510
1f511
1f512
1f513
1f514
1f515
1f516
1f517
1f518
1f519
1f51a
1f51b
1f51c
1f51d
1f51e
1f51f
";
   "1f520
1f521
1f522
1f523
1f524
1f525
1f526
1f527
1f528
1f529
1f52a
1f52b
1f52c
1f52d
1f52e
1f52f
1f530
1f531
1f532
1f533
1f534
1f535
1f536
1f537
1f538
1f539
1f53a
1f53b
1f53c
1f53d
1f549
1f54a
1f54b
1f54c
1f54d
1f54e
1f550
1f551
1f552
1f553
1f554
1f555
1f556
1f557
1f558
1f559
1f55a
1f55b
1f55c
1f55d
";
   "1f55e
1f55f
1f560
1f561
1f562
1f563
1f564
1f565
1f566
1f567
1f56f
1f570
1f573
1f574-1f3fb-200d-2640-fe0f
1f574-1f3fb-200d-2642-fe0f
1f574-1f3fb
1f574-1f3fc-200d-2640-fe0f
1f574-1f3fc-200d-2642-fe0f
1f574-1f3fc
1f574-1f3fd-200d-2640-fe0f
1f574-1f3fd-200d-2642-fe0f
1f574-1f3fd
1f574-1f3fe-200d-2640-fe0f
1f574-1f3fe-200d-2642-fe0f
1f574-1f3fe
1f574-1f3ff-200d-2640-fe0f
1f574-1f3ff-200d-2642-fe0f
1f574-1f3ff
1f574-fe0f-200d-2640-fe0f
1f574-fe0f-200d-2642-fe0f
1f574
1f575-1f3fb-200d-2640-fe0f
1f575-1f3fb-200d-2642-fe0f
1f575-1f3fb
1f575-1f3fc-200d-2640-fe0f
1f575-1f3fc-200d-2642-fe0f
1f575-1f3fc
1f575-1f3fd-200d-2640-fe0f
1f575-1f3fd-200d-2642-fe0f
1f575-1f3fd
1f575-1f3fe-200d-2640-fe0f
1f575-1f3fe-200d-2642-fe0f
1f575-1f3fe
1f575-1f3ff-200d-2640-fe0f
1f575-1f3ff-200d-2642-fe0f
1f575-1f3ff
1f575-fe0f-200d-2640-fe0f
1f575-fe0f-200d-2642-fe0f
1f575
1f576
";
   "1f577
1f578
1f579
1f57a-1f3fb
1f57a-1f3fc
1f57a-1f3fd
1f57a-1f3fe
1f57a-1f3ff
1f57a
1f587
1f58a
1f58b
1f58c
1f58d
1f590-1f3fb
1f590-1f3fc
1f590-1f3fd
1f590-1f3fe
1f590-1f3ff
1f590
1f595-1f3fb
1f595-1f3fc
1f595-1f3fd
1f595-1f3fe
1f595-1f3ff
1f595
1f596-1f3fb
1f596-1f3fc
1f596-1f3fd
1f596-1f3fe
1f596-1f3ff
1f596
1f5a4
1f5a5
1f5a8
1f5b1
1f5b2
1f5bc
1f5c2
1f5c3
1f5c4
1f5d1
1f5d2
1f5d3
1f5dc
1f5dd
1f5de
1f5e1
1f5e3
1f5e8
";
   "1f5ef
1f5f3
1f5fa
1f5fb
1f5fc
1f5fd
1f5fe
1f5ff
1f600
1f601
1f602
1f603
1f604
1f605
1f606
1f607
1f608
1f609
1f60a
1f60b
1f60c
1f60d
1f60e
1f60f
1f610
1f611
1f612
1f613
1f614
1f615
1f616
1f617
1f618
1f619
1f61a
1f61b
1f61c
1f61d
1f61e
1f61f
1f620
1f621
1f622
1f623
1f624
1f625
1f626
1f627
1f628
1f629
";
   "1f62a
1f62b
1f62c
1f62d
1f62e
1f62f
1f630
1f631
1f632
1f633
1f634
1f635
1f636
1f637
1f638
1f639
1f63a
1f63b
1f63c
1f63d
1f63e
1f63f
1f640
1f641
1f642
1f643
1f644
1f645-1f3fb-200d-2640-fe0f
1f645-1f3fb-200d-2642-fe0f
1f645-1f3fb
1f645-1f3fc-200d-2640-fe0f
1f645-1f3fc-200d-2642-fe0f
1f645-1f3fc
1f645-1f3fd-200d-2640-fe0f
1f645-1f3fd-200d-2642-fe0f
1f645-1f3fd
1f645-1f3fe-200d-2640-fe0f
1f645-1f3fe-200d-2642-fe0f
1f645-1f3fe
1f645-1f3ff-200d-2640-fe0f
1f645-1f3ff-200d-2642-fe0f
1f645-1f3ff
1f645-200d-2640-fe0f
1f645-200d-2642-fe0f
1f645
1f646-1f3fb-200d-2640-fe0f
1f646-1f3fb-200d-2642-fe0f
1f646-1f3fb
1f646-1f3fc-200d-2640-fe0f
1f646-1f3fc-200d-2642-fe0f
";
   "1f646-1f3fc
1f646-1f3fd-200d-2640-fe0f
1f646-1f3fd-200d-2642-fe0f
1f646-1f3fd
1f646-1f3fe-200d-2640-fe0f
1f646-1f3fe-200d-2642-fe0f
1f646-1f3fe
1f646-1f3ff-200d-2640-fe0f
1f646-1f3ff-200d-2642-fe0f
1f646-1f3ff
1f646-200d-2640-fe0f
1f646-200d-2642-fe0f
1f646
1f647-1f3fb-200d-2640-fe0f
1f647-1f3fb-200d-2642-fe0f
1f647-1f3fb
1f647-1f3fc-200d-2640-fe0f
1f647-1f3fc-200d-2642-fe0f
1f647-1f3fc
1f647-1f3fd-200d-2640-fe0f
1f647-1f3fd-200d-2642-fe0f
1f647-1f3fd
1f647-1f3fe-200d-2640-fe0f
1f647-1f3fe-200d-2642-fe0f
1f647-1f3fe
1f647-1f3ff-200d-2640-fe0f
1f647-1f3ff-200d-2642-fe0f
1f647-1f3ff
1f647-200d-2640-fe0f
1f647-200d-2642-fe0f
1f647
1f648
1f649
1f64a
1f64b-1f3fb-200d-2640-fe0f
1f64b-1f3fb-200d-2642-fe0f
1f64b-1f3fb
1f64b-1f3fc-200d-2640-fe0f
1f64b-1f3fc-200d-2642-fe0f
1f64b-1f3fc
1f64b-1f3fd-200d-2640-fe0f
1f64b-1f3fd-200d-2642-fe0f
1f64b-1f3fd
1f64b-1f3fe-200d-2640-fe0f
1f64b-1f3fe-200d-2642-fe0f
1f64b-1f3fe
1f64b-1f3ff-200d-2640-fe0f
1f64b-1f3ff-200d-2642-fe0f
1f64b-1f3ff
1f64b-200d-2640-fe0f
";
   "1f64b-200d-2642-fe0f
1f64b
1f64c-1f3fb
1f64c-1f3fc
1f64c-1f3fd
1f64c-1f3fe
1f64c-1f3ff
1f64c
1f64d-1f3fb-200d-2640-fe0f
1f64d-1f3fb-200d-2642-fe0f
1f64d-1f3fb
1f64d-1f3fc-200d-2640-fe0f
1f64d-1f3fc-200d-2642-fe0f
1f64d-1f3fc
1f64d-1f3fd-200d-2640-fe0f
1f64d-1f3fd-200d-2642-fe0f
1f64d-1f3fd
1f64d-1f3fe-200d-2640-fe0f
1f64d-1f3fe-200d-2642-fe0f
1f64d-1f3fe
1f64d-1f3ff-200d-2640-fe0f
1f64d-1f3ff-200d-2642-fe0f
1f64d-1f3ff
1f64d-200d-2640-fe0f
1f64d-200d-2642-fe0f
1f64d
1f64e-1f3fb-200d-2640-fe0f
1f64e-1f3fb-200d-2642-fe0f
1f64e-1f3fb
1f64e-1f3fc-200d-2640-fe0f
1f64e-1f3fc-200d-2642-fe0f
1f64e-1f3fc
1f64e-1f3fd-200d-2640-fe0f
1f64e-1f3fd-200d-2642-fe0f
1f64e-1f3fd
1f64e-1f3fe-200d-2640-fe0f
1f64e-1f3fe-200d-2642-fe0f
1f64e-1f3fe
1f64e-1f3ff-200d-2640-fe0f
1f64e-1f3ff-200d-2642-fe0f
1f64e-1f3ff
1f64e-200d-2640-fe0f
1f64e-200d-2642-fe0f
1f64e
1f64f-1f3fb
1f64f-1f3fc
1f64f-1f3fd
1f64f-1f3fe
1f64f-1f3ff
1f64f
";
   "1f680
1f681
1f682
1f683
1f684
1f685
1f686
1f687
1f688
1f689
1f68a
1f68b
1f68c
1f68d
1f68e
1f68f
1f690
1f691
1f692
1f693
1f694
1f695
1f696
1f697
1f698
1f699
1f69a
1f69b
1f69c
1f69d
1f69e
1f69f
1f6a0
1f6a1
1f6a2
1f6a3-1f3fb-200d-2640-fe0f
1f6a3-1f3fb-200d-2642-fe0f
1f6a3-1f3fb
1f6a3-1f3fc-200d-2640-fe0f
1f6a3-1f3fc-200d-2642-fe0f
1f6a3-1f3fc
1f6a3-1f3fd-200d-2640-fe0f
1f6a3-1f3fd-200d-2642-fe0f
1f6a3-1f3fd
1f6a3-1f3fe-200d-2640-fe0f
1f6a3-1f3fe-200d-2642-fe0f
1f6a3-1f3fe
1f6a3-1f3ff-200d-2640-fe0f
1f6a3-1f3ff-200d-2642-fe0f
1f6a3-1f3ff
";
   "1f6a3-200d-2640-fe0f
1f6a3-200d-2642-fe0f
1f6a3
1f6a4
1f6a5
1f6a6
1f6a7
1f6a8
1f6a9
1f6aa
1f6ab
1f6ac
1f6ad
1f6ae
1f6af
1f6b0
1f6b1
1f6b2
1f6b3
1f6b4-1f3fb-200d-2640-fe0f
1f6b4-1f3fb-200d-2642-fe0f
1f6b4-1f3fb
1f6b4-1f3fc-200d-2640-fe0f
1f6b4-1f3fc-200d-2642-fe0f
1f6b4-1f3fc
1f6b4-1f3fd-200d-2640-fe0f
1f6b4-1f3fd-200d-2642-fe0f
1f6b4-1f3fd
1f6b4-1f3fe-200d-2640-fe0f
1f6b4-1f3fe-200d-2642-fe0f
1f6b4-1f3fe
1f6b4-1f3ff-200d-2640-fe0f
1f6b4-1f3ff-200d-2642-fe0f
1f6b4-1f3ff
1f6b4-200d-2640-fe0f
1f6b4-200d-2642-fe0f
1f6b4
1f6b5-1f3fb-200d-2640-fe0f
1f6b5-1f3fb-200d-2642-fe0f
1f6b5-1f3fb
1f6b5-1f3fc-200d-2640-fe0f
1f6b5-1f3fc-200d-2642-fe0f
1f6b5-1f3fc
1f6b5-1f3fd-200d-2640-fe0f
1f6b5-1f3fd-200d-2642-fe0f
1f6b5-1f3fd
1f6b5-1f3fe-200d-2640-fe0f
1f6b5-1f3fe-200d-2642-fe0f
1f6b5-1f3fe
1f6b5-1f3ff-200d-2640-fe0f
";
   "1f6b5-1f3ff-200d-2642-fe0f
1f6b5-1f3ff
1f6b5-200d-2640-fe0f
1f6b5-200d-2642-fe0f
1f6b5
1f6b6-1f3fb-200d-2640-fe0f
1f6b6-1f3fb-200d-2642-fe0f
1f6b6-1f3fb
1f6b6-1f3fc-200d-2640-fe0f
1f6b6-1f3fc-200d-2642-fe0f
1f6b6-1f3fc
1f6b6-1f3fd-200d-2640-fe0f
1f6b6-1f3fd-200d-2642-fe0f
1f6b6-1f3fd
1f6b6-1f3fe-200d-2640-fe0f
1f6b6-1f3fe-200d-2642-fe0f
1f6b6-1f3fe
1f6b6-1f3ff-200d-2640-fe0f
1f6b6-1f3ff-200d-2642-fe0f
1f6b6-1f3ff
1f6b6-200d-2640-fe0f
1f6b6-200d-2642-fe0f
1f6b6
1f6b7
1f6b8
1f6b9
1f6ba
1f6bb
1f6bc
1f6bd
1f6be
1f6bf
1f6c0-1f3fb
1f6c0-1f3fc
1f6c0-1f3fd
1f6c0-1f3fe
1f6c0-1f3ff
1f6c0
1f6c1
1f6c2
1f6c3
1f6c4
1f6c5
1f6cb
1f6cc-1f3fb
1f6cc-1f3fc
1f6cc-1f3fd
1f6cc-1f3fe
1f6cc-1f3ff
1f6cc
";
   "1f6cd
1f6ce
1f6cf
1f6d0
1f6d1
1f6d2
1f6d5
1f6d6
1f6d7
1f6e0
1f6e1
1f6e2
1f6e3
1f6e4
1f6e5
1f6e9
1f6eb
1f6ec
1f6f0
1f6f3
1f6f4
1f6f5
1f6f6
1f6f7
1f6f8
1f6f9
1f6fa
1f6fb
1f6fc
1f7e0
1f7e1
1f7e2
1f7e3
1f7e4
1f7e5
1f7e6
1f7e7
1f7e8
1f7e9
1f7ea
1f7eb
1f90c-1f3fb
1f90c-1f3fc
1f90c-1f3fd
1f90c-1f3fe
1f90c-1f3ff
1f90c
1f90d
1f90e
1f90f-1f3fb
";
   "1f90f-1f3fc
1f90f-1f3fd
1f90f-1f3fe
1f90f-1f3ff
1f90f
1f910
1f911
1f912
1f913
1f914
1f915
1f916
1f917
1f918-1f3fb
1f918-1f3fc
1f918-1f3fd
1f918-1f3fe
1f918-1f3ff
1f918
1f919-1f3fb
1f919-1f3fc
1f919-1f3fd
1f919-1f3fe
1f919-1f3ff
1f919
1f91a-1f3fb
1f91a-1f3fc
1f91a-1f3fd
1f91a-1f3fe
1f91a-1f3ff
1f91a
1f91b-1f3fb
1f91b-1f3fc
1f91b-1f3fd
1f91b-1f3fe
1f91b-1f3ff
1f91b
1f91c-1f3fb
1f91c-1f3fc
1f91c-1f3fd
1f91c-1f3fe
1f91c-1f3ff
1f91c
1f91d
1f91e-1f3fb
1f91e-1f3fc
1f91e-1f3fd
1f91e-1f3fe
1f91e-1f3ff
1f91e
";
   "1f91f-1f3fb
1f91f-1f3fc
1f91f-1f3fd
1f91f-1f3fe
1f91f-1f3ff
1f91f
1f920
1f921
1f922
1f923
1f924
1f925
1f926-1f3fb-200d-2640-fe0f
1f926-1f3fb-200d-2642-fe0f
1f926-1f3fb
1f926-1f3fc-200d-2640-fe0f
1f926-1f3fc-200d-2642-fe0f
1f926-1f3fc
1f926-1f3fd-200d-2640-fe0f
1f926-1f3fd-200d-2642-fe0f
1f926-1f3fd
1f926-1f3fe-200d-2640-fe0f
1f926-1f3fe-200d-2642-fe0f
1f926-1f3fe
1f926-1f3ff-200d-2640-fe0f
1f926-1f3ff-200d-2642-fe0f
1f926-1f3ff
1f926-200d-2640-fe0f
1f926-200d-2642-fe0f
1f926
1f927
1f928
1f929
1f92a
1f92b
1f92c
1f92d
1f92e
1f92f
1f930-1f3fb
1f930-1f3fc
1f930-1f3fd
1f930-1f3fe
1f930-1f3ff
1f930
1f931-1f3fb
1f931-1f3fc
1f931-1f3fd
1f931-1f3fe
1f931-1f3ff
";
   "1f931
1f932-1f3fb
1f932-1f3fc
1f932-1f3fd
1f932-1f3fe
1f932-1f3ff
1f932
1f933-1f3fb
1f933-1f3fc
1f933-1f3fd
1f933-1f3fe
1f933-1f3ff
1f933
1f934-1f3fb
1f934-1f3fc
1f934-1f3fd
1f934-1f3fe
1f934-1f3ff
1f934
1f935-1f3fb-200d-2640-fe0f
1f935-1f3fb-200d-2642-fe0f
1f935-1f3fb
1f935-1f3fc-200d-2640-fe0f
1f935-1f3fc-200d-2642-fe0f
1f935-1f3fc
1f935-1f3fd-200d-2640-fe0f
1f935-1f3fd-200d-2642-fe0f
1f935-1f3fd
1f935-1f3fe-200d-2640-fe0f
1f935-1f3fe-200d-2642-fe0f
1f935-1f3fe
1f935-1f3ff-200d-2640-fe0f
1f935-1f3ff-200d-2642-fe0f
1f935-1f3ff
1f935-200d-2640-fe0f
1f935-200d-2642-fe0f
1f935
1f936-1f3fb
1f936-1f3fc
1f936-1f3fd
1f936-1f3fe
1f936-1f3ff
1f936
1f937-1f3fb-200d-2640-fe0f
1f937-1f3fb-200d-2642-fe0f
1f937-1f3fb
1f937-1f3fc-200d-2640-fe0f
1f937-1f3fc-200d-2642-fe0f
1f937-1f3fc
1f937-1f3fd-200d-2640-fe0f
";
   "1f937-1f3fd-200d-2642-fe0f
1f937-1f3fd
1f937-1f3fe-200d-2640-fe0f
1f937-1f3fe-200d-2642-fe0f
1f937-1f3fe
1f937-1f3ff-200d-2640-fe0f
1f937-1f3ff-200d-2642-fe0f
1f937-1f3ff
1f937-200d-2640-fe0f
1f937-200d-2642-fe0f
1f937
1f938-1f3fb-200d-2640-fe0f
1f938-1f3fb-200d-2642-fe0f
1f938-1f3fb
1f938-1f3fc-200d-2640-fe0f
1f938-1f3fc-200d-2642-fe0f
1f938-1f3fc
1f938-1f3fd-200d-2640-fe0f
1f938-1f3fd-200d-2642-fe0f
1f938-1f3fd
1f938-1f3fe-200d-2640-fe0f
1f938-1f3fe-200d-2642-fe0f
1f938-1f3fe
1f938-1f3ff-200d-2640-fe0f
1f938-1f3ff-200d-2642-fe0f
1f938-1f3ff
1f938-200d-2640-fe0f
1f938-200d-2642-fe0f
1f938
1f939-1f3fb-200d-2640-fe0f
1f939-1f3fb-200d-2642-fe0f
1f939-1f3fb
1f939-1f3fc-200d-2640-fe0f
1f939-1f3fc-200d-2642-fe0f
1f939-1f3fc
1f939-1f3fd-200d-2640-fe0f
1f939-1f3fd-200d-2642-fe0f
1f939-1f3fd
1f939-1f3fe-200d-2640-fe0f
1f939-1f3fe-200d-2642-fe0f
1f939-1f3fe
1f939-1f3ff-200d-2640-fe0f
1f939-1f3ff-200d-2642-fe0f
1f939-1f3ff
1f939-200d-2640-fe0f
1f939-200d-2642-fe0f
1f939
1f93a
1f93c-200d-2640-fe0f
1f93c-200d-2642-fe0f
";
   "1f93c
1f93d-1f3fb-200d-2640-fe0f
1f93d-1f3fb-200d-2642-fe0f
1f93d-1f3fb
1f93d-1f3fc-200d-2640-fe0f
1f93d-1f3fc-200d-2642-fe0f
1f93d-1f3fc
1f93d-1f3fd-200d-2640-fe0f
1f93d-1f3fd-200d-2642-fe0f
1f93d-1f3fd
1f93d-1f3fe-200d-2640-fe0f
1f93d-1f3fe-200d-2642-fe0f
1f93d-1f3fe
1f93d-1f3ff-200d-2640-fe0f
1f93d-1f3ff-200d-2642-fe0f
1f93d-1f3ff
1f93d-200d-2640-fe0f
1f93d-200d-2642-fe0f
1f93d
1f93e-1f3fb-200d-2640-fe0f
1f93e-1f3fb-200d-2642-fe0f
1f93e-1f3fb
1f93e-1f3fc-200d-2640-fe0f
1f93e-1f3fc-200d-2642-fe0f
1f93e-1f3fc
1f93e-1f3fd-200d-2640-fe0f
1f93e-1f3fd-200d-2642-fe0f
1f93e-1f3fd
1f93e-1f3fe-200d-2640-fe0f
1f93e-1f3fe-200d-2642-fe0f
1f93e-1f3fe
1f93e-1f3ff-200d-2640-fe0f
1f93e-1f3ff-200d-2642-fe0f
1f93e-1f3ff
1f93e-200d-2640-fe0f
1f93e-200d-2642-fe0f
1f93e
1f93f
1f940
1f941
1f942
1f943
1f944
1f945
1f947
1f948
1f949
1f94a
1f94b
1f94c
";
   "1f94d
1f94e
1f94f
1f950
1f951
1f952
1f953
1f954
1f955
1f956
1f957
1f958
1f959
1f95a
1f95b
1f95c
1f95d
1f95e
1f95f
1f960
1f961
1f962
1f963
1f964
1f965
1f966
1f967
1f968
1f969
1f96a
1f96b
1f96c
1f96d
1f96e
1f96f
1f970
1f971
1f972
1f973
1f974
1f975
1f976
1f977-1f3fb
1f977-1f3fc
1f977-1f3fd
1f977-1f3fe
1f977-1f3ff
1f977
1f978
1f97a
";
   "1f97b
1f97c
1f97d
1f97e
1f97f
1f980
1f981
1f982
1f983
1f984
1f985
1f986
1f987
1f988
1f989
1f98a
1f98b
1f98c
1f98d
1f98e
1f98f
1f990
1f991
1f992
1f993
1f994
1f995
1f996
1f997
1f998
1f999
1f99a
1f99b
1f99c
1f99d
1f99e
1f99f
1f9a0
1f9a1
1f9a2
1f9a3
1f9a4
1f9a5
1f9a6
1f9a7
1f9a8
1f9a9
1f9aa
1f9ab
1f9ac
";
   "1f9ad
1f9ae
1f9af
1f9b0
1f9b1
1f9b2
1f9b3
1f9b4
1f9b5-1f3fb
1f9b5-1f3fc
1f9b5-1f3fd
1f9b5-1f3fe
1f9b5-1f3ff
1f9b5
1f9b6-1f3fb
1f9b6-1f3fc
1f9b6-1f3fd
1f9b6-1f3fe
1f9b6-1f3ff
1f9b6
1f9b7
1f9b8-1f3fb-200d-2640-fe0f
1f9b8-1f3fb-200d-2642-fe0f
1f9b8-1f3fb
1f9b8-1f3fc-200d-2640-fe0f
1f9b8-1f3fc-200d-2642-fe0f
1f9b8-1f3fc
1f9b8-1f3fd-200d-2640-fe0f
1f9b8-1f3fd-200d-2642-fe0f
1f9b8-1f3fd
1f9b8-1f3fe-200d-2640-fe0f
1f9b8-1f3fe-200d-2642-fe0f
1f9b8-1f3fe
1f9b8-1f3ff-200d-2640-fe0f
1f9b8-1f3ff-200d-2642-fe0f
1f9b8-1f3ff
1f9b8-200d-2640-fe0f
1f9b8-200d-2642-fe0f
1f9b8
1f9b9-1f3fb-200d-2640-fe0f
1f9b9-1f3fb-200d-2642-fe0f
1f9b9-1f3fb
1f9b9-1f3fc-200d-2640-fe0f
1f9b9-1f3fc-200d-2642-fe0f
1f9b9-1f3fc
1f9b9-1f3fd-200d-2640-fe0f
1f9b9-1f3fd-200d-2642-fe0f
1f9b9-1f3fd
1f9b9-1f3fe-200d-2640-fe0f
1f9b9-1f3fe-200d-2642-fe0f
";
   "1f9b9-1f3fe
1f9b9-1f3ff-200d-2640-fe0f
1f9b9-1f3ff-200d-2642-fe0f
1f9b9-1f3ff
1f9b9-200d-2640-fe0f
1f9b9-200d-2642-fe0f
1f9b9
1f9ba
1f9bb-1f3fb
1f9bb-1f3fc
1f9bb-1f3fd
1f9bb-1f3fe
1f9bb-1f3ff
1f9bb
1f9bc
1f9bd
1f9be
1f9bf
1f9c0
1f9c1
1f9c2
1f9c3
1f9c4
1f9c5
1f9c6
1f9c7
1f9c8
1f9c9
1f9ca
1f9cb
1f9cd-1f3fb-200d-2640-fe0f
1f9cd-1f3fb-200d-2642-fe0f
1f9cd-1f3fb
1f9cd-1f3fc-200d-2640-fe0f
1f9cd-1f3fc-200d-2642-fe0f
1f9cd-1f3fc
1f9cd-1f3fd-200d-2640-fe0f
1f9cd-1f3fd-200d-2642-fe0f
1f9cd-1f3fd
1f9cd-1f3fe-200d-2640-fe0f
1f9cd-1f3fe-200d-2642-fe0f
1f9cd-1f3fe
1f9cd-1f3ff-200d-2640-fe0f
1f9cd-1f3ff-200d-2642-fe0f
1f9cd-1f3ff
1f9cd-200d-2640-fe0f
1f9cd-200d-2642-fe0f
1f9cd
1f9ce-1f3fb-200d-2640-fe0f
1f9ce-1f3fb-200d-2642-fe0f
";
   "1f9ce-1f3fb
1f9ce-1f3fc-200d-2640-fe0f
1f9ce-1f3fc-200d-2642-fe0f
1f9ce-1f3fc
1f9ce-1f3fd-200d-2640-fe0f
1f9ce-1f3fd-200d-2642-fe0f
1f9ce-1f3fd
1f9ce-1f3fe-200d-2640-fe0f
1f9ce-1f3fe-200d-2642-fe0f
1f9ce-1f3fe
1f9ce-1f3ff-200d-2640-fe0f
1f9ce-1f3ff-200d-2642-fe0f
1f9ce-1f3ff
1f9ce-200d-2640-fe0f
1f9ce-200d-2642-fe0f
1f9ce
1f9cf-1f3fb-200d-2640-fe0f
1f9cf-1f3fb-200d-2642-fe0f
1f9cf-1f3fb
1f9cf-1f3fc-200d-2640-fe0f
1f9cf-1f3fc-200d-2642-fe0f
1f9cf-1f3fc
1f9cf-1f3fd-200d-2640-fe0f
1f9cf-1f3fd-200d-2642-fe0f
1f9cf-1f3fd
1f9cf-1f3fe-200d-2640-fe0f
1f9cf-1f3fe-200d-2642-fe0f
1f9cf-1f3fe
1f9cf-1f3ff-200d-2640-fe0f
1f9cf-1f3ff-200d-2642-fe0f
1f9cf-1f3ff
1f9cf-200d-2640-fe0f
1f9cf-200d-2642-fe0f
1f9cf
1f9d0
1f9d1-1f3fb-200d-1f33e
1f9d1-1f3fb-200d-1f373
1f9d1-1f3fb-200d-1f37c
1f9d1-1f3fb-200d-1f384
1f9d1-1f3fb-200d-1f393
1f9d1-1f3fb-200d-1f3a4
1f9d1-1f3fb-200d-1f3a8
1f9d1-1f3fb-200d-1f3eb
1f9d1-1f3fb-200d-1f3ed
1f9d1-1f3fb-200d-1f4bb
1f9d1-1f3fb-200d-1f4bc
1f9d1-1f3fb-200d-1f527
1f9d1-1f3fb-200d-1f52c
1f9d1-1f3fb-200d-1f680
1f9d1-1f3fb-200d-1f692
";
   "1f9d1-1f3fb-200d-1f91d-200d-1f9d1-1f3fb
1f9d1-1f3fb-200d-1f91d-200d-1f9d1-1f3fc
1f9d1-1f3fb-200d-1f91d-200d-1f9d1-1f3fd
1f9d1-1f3fb-200d-1f91d-200d-1f9d1-1f3fe
1f9d1-1f3fb-200d-1f91d-200d-1f9d1-1f3ff
1f9d1-1f3fb-200d-1f9af
1f9d1-1f3fb-200d-1f9b0
1f9d1-1f3fb-200d-1f9b1
1f9d1-1f3fb-200d-1f9b2
1f9d1-1f3fb-200d-1f9b3
1f9d1-1f3fb-200d-1f9bc
1f9d1-1f3fb-200d-1f9bd
1f9d1-1f3fb-200d-2695-fe0f
1f9d1-1f3fb-200d-2696-fe0f
1f9d1-1f3fb-200d-2708-fe0f
1f9d1-1f3fb
1f9d1-1f3fc-200d-1f33e
1f9d1-1f3fc-200d-1f373
1f9d1-1f3fc-200d-1f37c
1f9d1-1f3fc-200d-1f384
1f9d1-1f3fc-200d-1f393
1f9d1-1f3fc-200d-1f3a4
1f9d1-1f3fc-200d-1f3a8
1f9d1-1f3fc-200d-1f3eb
1f9d1-1f3fc-200d-1f3ed
1f9d1-1f3fc-200d-1f4bb
1f9d1-1f3fc-200d-1f4bc
1f9d1-1f3fc-200d-1f527
1f9d1-1f3fc-200d-1f52c
1f9d1-1f3fc-200d-1f680
1f9d1-1f3fc-200d-1f692
1f9d1-1f3fc-200d-1f91d-200d-1f9d1-1f3fb
1f9d1-1f3fc-200d-1f91d-200d-1f9d1-1f3fc
1f9d1-1f3fc-200d-1f91d-200d-1f9d1-1f3fd
1f9d1-1f3fc-200d-1f91d-200d-1f9d1-1f3fe
1f9d1-1f3fc-200d-1f91d-200d-1f9d1-1f3ff
1f9d1-1f3fc-200d-1f9af
1f9d1-1f3fc-200d-1f9b0
1f9d1-1f3fc-200d-1f9b1
1f9d1-1f3fc-200d-1f9b2
1f9d1-1f3fc-200d-1f9b3
1f9d1-1f3fc-200d-1f9bc
1f9d1-1f3fc-200d-1f9bd
1f9d1-1f3fc-200d-2695-fe0f
1f9d1-1f3fc-200d-2696-fe0f
1f9d1-1f3fc-200d-2708-fe0f
1f9d1-1f3fc
1f9d1-1f3fd-200d-1f33e
1f9d1-1f3fd-200d-1f373
1f9d1-1f3fd-200d-1f37c
";
   "1f9d1-1f3fd-200d-1f384
1f9d1-1f3fd-200d-1f393
1f9d1-1f3fd-200d-1f3a4
1f9d1-1f3fd-200d-1f3a8
1f9d1-1f3fd-200d-1f3eb
1f9d1-1f3fd-200d-1f3ed
1f9d1-1f3fd-200d-1f4bb
1f9d1-1f3fd-200d-1f4bc
1f9d1-1f3fd-200d-1f527
1f9d1-1f3fd-200d-1f52c
1f9d1-1f3fd-200d-1f680
1f9d1-1f3fd-200d-1f692
1f9d1-1f3fd-200d-1f91d-200d-1f9d1-1f3fb
1f9d1-1f3fd-200d-1f91d-200d-1f9d1-1f3fc
1f9d1-1f3fd-200d-1f91d-200d-1f9d1-1f3fd
1f9d1-1f3fd-200d-1f91d-200d-1f9d1-1f3fe
1f9d1-1f3fd-200d-1f91d-200d-1f9d1-1f3ff
1f9d1-1f3fd-200d-1f9af
1f9d1-1f3fd-200d-1f9b0
1f9d1-1f3fd-200d-1f9b1
1f9d1-1f3fd-200d-1f9b2
1f9d1-1f3fd-200d-1f9b3
1f9d1-1f3fd-200d-1f9bc
1f9d1-1f3fd-200d-1f9bd
1f9d1-1f3fd-200d-2695-fe0f
1f9d1-1f3fd-200d-2696-fe0f
1f9d1-1f3fd-200d-2708-fe0f
1f9d1-1f3fd
1f9d1-1f3fe-200d-1f33e
1f9d1-1f3fe-200d-1f373
1f9d1-1f3fe-200d-1f37c
1f9d1-1f3fe-200d-1f384
1f9d1-1f3fe-200d-1f393
1f9d1-1f3fe-200d-1f3a4
1f9d1-1f3fe-200d-1f3a8
1f9d1-1f3fe-200d-1f3eb
1f9d1-1f3fe-200d-1f3ed
1f9d1-1f3fe-200d-1f4bb
1f9d1-1f3fe-200d-1f4bc
1f9d1-1f3fe-200d-1f527
1f9d1-1f3fe-200d-1f52c
1f9d1-1f3fe-200d-1f680
1f9d1-1f3fe-200d-1f692
1f9d1-1f3fe-200d-1f91d-200d-1f9d1-1f3fb
1f9d1-1f3fe-200d-1f91d-200d-1f9d1-1f3fc
1f9d1-1f3fe-200d-1f91d-200d-1f9d1-1f3fd
1f9d1-1f3fe-200d-1f91d-200d-1f9d1-1f3fe
1f9d1-1f3fe-200d-1f91d-200d-1f9d1-1f3ff
1f9d1-1f3fe-200d-1f9af
1f9d1-1f3fe-200d-1f9b0
";
   "1f9d1-1f3fe-200d-1f9b1
1f9d1-1f3fe-200d-1f9b2
1f9d1-1f3fe-200d-1f9b3
1f9d1-1f3fe-200d-1f9bc
1f9d1-1f3fe-200d-1f9bd
1f9d1-1f3fe-200d-2695-fe0f
1f9d1-1f3fe-200d-2696-fe0f
1f9d1-1f3fe-200d-2708-fe0f
1f9d1-1f3fe
1f9d1-1f3ff-200d-1f33e
1f9d1-1f3ff-200d-1f373
1f9d1-1f3ff-200d-1f37c
1f9d1-1f3ff-200d-1f384
1f9d1-1f3ff-200d-1f393
1f9d1-1f3ff-200d-1f3a4
1f9d1-1f3ff-200d-1f3a8
1f9d1-1f3ff-200d-1f3eb
1f9d1-1f3ff-200d-1f3ed
1f9d1-1f3ff-200d-1f4bb
1f9d1-1f3ff-200d-1f4bc
1f9d1-1f3ff-200d-1f527
1f9d1-1f3ff-200d-1f52c
1f9d1-1f3ff-200d-1f680
1f9d1-1f3ff-200d-1f692
1f9d1-1f3ff-200d-1f91d-200d-1f9d1-1f3fb
1f9d1-1f3ff-200d-1f91d-200d-1f9d1-1f3fc
1f9d1-1f3ff-200d-1f91d-200d-1f9d1-1f3fd
1f9d1-1f3ff-200d-1f91d-200d-1f9d1-1f3fe
1f9d1-1f3ff-200d-1f91d-200d-1f9d1-1f3ff
1f9d1-1f3ff-200d-1f9af
1f9d1-1f3ff-200d-1f9b0
1f9d1-1f3ff-200d-1f9b1
1f9d1-1f3ff-200d-1f9b2
1f9d1-1f3ff-200d-1f9b3
1f9d1-1f3ff-200d-1f9bc
1f9d1-1f3ff-200d-1f9bd
1f9d1-1f3ff-200d-2695-fe0f
1f9d1-1f3ff-200d-2696-fe0f
1f9d1-1f3ff-200d-2708-fe0f
1f9d1-1f3ff
1f9d1-200d-1f33e
1f9d1-200d-1f373
1f9d1-200d-1f37c
1f9d1-200d-1f384
1f9d1-200d-1f393
1f9d1-200d-1f3a4
1f9d1-200d-1f3a8
1f9d1-200d-1f3eb
1f9d1-200d-1f3ed
1f9d1-200d-1f4bb
";
   "1f9d1-200d-1f4bc
1f9d1-200d-1f527
1f9d1-200d-1f52c
1f9d1-200d-1f680
1f9d1-200d-1f692
1f9d1-200d-1f91d-200d-1f9d1
1f9d1-200d-1f9af
1f9d1-200d-1f9b0
1f9d1-200d-1f9b1
1f9d1-200d-1f9b2
1f9d1-200d-1f9b3
1f9d1-200d-1f9bc
1f9d1-200d-1f9bd
1f9d1-200d-2695-fe0f
1f9d1-200d-2696-fe0f
1f9d1-200d-2708-fe0f
1f9d1
1f9d2-1f3fb
1f9d2-1f3fc
1f9d2-1f3fd
1f9d2-1f3fe
1f9d2-1f3ff
1f9d2
1f9d3-1f3fb
1f9d3-1f3fc
1f9d3-1f3fd
1f9d3-1f3fe
1f9d3-1f3ff
1f9d3
1f9d4-1f3fb
1f9d4-1f3fc
1f9d4-1f3fd
1f9d4-1f3fe
1f9d4-1f3ff
1f9d4
1f9d5-1f3fb
1f9d5-1f3fc
1f9d5-1f3fd
1f9d5-1f3fe
1f9d5-1f3ff
1f9d5
1f9d6-1f3fb-200d-2640-fe0f
1f9d6-1f3fb-200d-2642-fe0f
1f9d6-1f3fb
1f9d6-1f3fc-200d-2640-fe0f
1f9d6-1f3fc-200d-2642-fe0f
1f9d6-1f3fc
1f9d6-1f3fd-200d-2640-fe0f
1f9d6-1f3fd-200d-2642-fe0f
1f9d6-1f3fd
";
   "1f9d6-1f3fe-200d-2640-fe0f
1f9d6-1f3fe-200d-2642-fe0f
1f9d6-1f3fe
1f9d6-1f3ff-200d-2640-fe0f
1f9d6-1f3ff-200d-2642-fe0f
1f9d6-1f3ff
1f9d6-200d-2640-fe0f
1f9d6-200d-2642-fe0f
1f9d6
1f9d7-1f3fb-200d-2640-fe0f
1f9d7-1f3fb-200d-2642-fe0f
1f9d7-1f3fb
1f9d7-1f3fc-200d-2640-fe0f
1f9d7-1f3fc-200d-2642-fe0f
1f9d7-1f3fc
1f9d7-1f3fd-200d-2640-fe0f
1f9d7-1f3fd-200d-2642-fe0f
1f9d7-1f3fd
1f9d7-1f3fe-200d-2640-fe0f
1f9d7-1f3fe-200d-2642-fe0f
1f9d7-1f3fe
1f9d7-1f3ff-200d-2640-fe0f
1f9d7-1f3ff-200d-2642-fe0f
1f9d7-1f3ff
1f9d7-200d-2640-fe0f
1f9d7-200d-2642-fe0f
1f9d7
1f9d8-1f3fb-200d-2640-fe0f
1f9d8-1f3fb-200d-2642-fe0f
1f9d8-1f3fb
1f9d8-1f3fc-200d-2640-fe0f
1f9d8-1f3fc-200d-2642-fe0f
1f9d8-1f3fc
1f9d8-1f3fd-200d-2640-fe0f
1f9d8-1f3fd-200d-2642-fe0f
1f9d8-1f3fd
1f9d8-1f3fe-200d-2640-fe0f
1f9d8-1f3fe-200d-2642-fe0f
1f9d8-1f3fe
1f9d8-1f3ff-200d-2640-fe0f
1f9d8-1f3ff-200d-2642-fe0f
1f9d8-1f3ff
1f9d8-200d-2640-fe0f
1f9d8-200d-2642-fe0f
1f9d8
1f9d9-1f3fb-200d-2640-fe0f
1f9d9-1f3fb-200d-2642-fe0f
1f9d9-1f3fb
1f9d9-1f3fc-200d-2640-fe0f
1f9d9-1f3fc-200d-2642-fe0f
";
   "1f9d9-1f3fc
1f9d9-1f3fd-200d-2640-fe0f
1f9d9-1f3fd-200d-2642-fe0f
1f9d9-1f3fd
1f9d9-1f3fe-200d-2640-fe0f
1f9d9-1f3fe-200d-2642-fe0f
1f9d9-1f3fe
1f9d9-1f3ff-200d-2640-fe0f
1f9d9-1f3ff-200d-2642-fe0f
1f9d9-1f3ff
1f9d9-200d-2640-fe0f
1f9d9-200d-2642-fe0f
1f9d9
1f9da-1f3fb-200d-2640-fe0f
1f9da-1f3fb-200d-2642-fe0f
1f9da-1f3fb
1f9da-1f3fc-200d-2640-fe0f
1f9da-1f3fc-200d-2642-fe0f
1f9da-1f3fc
1f9da-1f3fd-200d-2640-fe0f
1f9da-1f3fd-200d-2642-fe0f
1f9da-1f3fd
1f9da-1f3fe-200d-2640-fe0f
1f9da-1f3fe-200d-2642-fe0f
1f9da-1f3fe
1f9da-1f3ff-200d-2640-fe0f
1f9da-1f3ff-200d-2642-fe0f
1f9da-1f3ff
1f9da-200d-2640-fe0f
1f9da-200d-2642-fe0f
1f9da
1f9db-1f3fb-200d-2640-fe0f
1f9db-1f3fb-200d-2642-fe0f
1f9db-1f3fb
1f9db-1f3fc-200d-2640-fe0f
1f9db-1f3fc-200d-2642-fe0f
1f9db-1f3fc
1f9db-1f3fd-200d-2640-fe0f
1f9db-1f3fd-200d-2642-fe0f
1f9db-1f3fd
1f9db-1f3fe-200d-2640-fe0f
1f9db-1f3fe-200d-2642-fe0f
1f9db-1f3fe
1f9db-1f3ff-200d-2640-fe0f
1f9db-1f3ff-200d-2642-fe0f
1f9db-1f3ff
1f9db-200d-2640-fe0f
1f9db-200d-2642-fe0f
1f9db
1f9dc-1f3fb-200d-2640-fe0f
";
   "1f9dc-1f3fb-200d-2642-fe0f
1f9dc-1f3fb
1f9dc-1f3fc-200d-2640-fe0f
1f9dc-1f3fc-200d-2642-fe0f
1f9dc-1f3fc
1f9dc-1f3fd-200d-2640-fe0f
1f9dc-1f3fd-200d-2642-fe0f
1f9dc-1f3fd
1f9dc-1f3fe-200d-2640-fe0f
1f9dc-1f3fe-200d-2642-fe0f
1f9dc-1f3fe
1f9dc-1f3ff-200d-2640-fe0f
1f9dc-1f3ff-200d-2642-fe0f
1f9dc-1f3ff
1f9dc-200d-2640-fe0f
1f9dc-200d-2642-fe0f
1f9dc
1f9dd-1f3fb-200d-2640-fe0f
1f9dd-1f3fb-200d-2642-fe0f
1f9dd-1f3fb
1f9dd-1f3fc-200d-2640-fe0f
1f9dd-1f3fc-200d-2642-fe0f
1f9dd-1f3fc
1f9dd-1f3fd-200d-2640-fe0f
1f9dd-1f3fd-200d-2642-fe0f
1f9dd-1f3fd
1f9dd-1f3fe-200d-2640-fe0f
1f9dd-1f3fe-200d-2642-fe0f
1f9dd-1f3fe
1f9dd-1f3ff-200d-2640-fe0f
1f9dd-1f3ff-200d-2642-fe0f
1f9dd-1f3ff
1f9dd-200d-2640-fe0f
1f9dd-200d-2642-fe0f
1f9dd
1f9de-200d-2640-fe0f
1f9de-200d-2642-fe0f
1f9de
1f9df-200d-2640-fe0f
1f9df-200d-2642-fe0f
1f9df
1f9e0
1f9e1
1f9e2
1f9e3
1f9e4
1f9e5
1f9e6
1f9e7
1f9e8
";
   "1f9e9
1f9ea
1f9eb
1f9ec
1f9ed
1f9ee
1f9ef
1f9f0
1f9f1
1f9f2
1f9f3
1f9f4
1f9f5
1f9f6
1f9f7
1f9f8
1f9f9
1f9fa
1f9fb
1f9fc
1f9fd
1f9fe
1f9ff
1fa70
1fa71
1fa72
1fa73
1fa74
1fa78
1fa79
1fa7a
1fa80
1fa81
1fa82
1fa83
1fa84
1fa85
1fa86
1fa90
1fa91
1fa92
1fa93
1fa94
1fa95
1fa96
1fa97
1fa98
1fa99
1fa9a
1fa9b
";
   "1fa9c
1fa9d
1fa9e
1fa9f
1faa0
1faa1
1faa2
1faa3
1faa4
1faa5
1faa6
1faa7
1faa8
1fab0
1fab1
1fab2
1fab3
1fab4
1fab5
1fab6
1fac0
1fac1
1fac2
1fad0
1fad1
1fad2
1fad3
1fad4
1fad5
1fad6
203c
2049
2122
2139
2194
2195
2196
2197
2198
2199
21a9
21aa
231a
231b
23-20e3
2328
23cf
23e9
23ea
23eb
";
   "23ec
23ed
23ee
23ef
23f0
23f1
23f2
23f3
23f8
23f9
23fa
24c2
25aa
25ab
25b6
25c0
25fb
25fc
25fd
25fe
2600
2601
2602
2603
2604
260e
2611
2614
2615
2618
261d-1f3fb
261d-1f3fc
261d-1f3fd
261d-1f3fe
261d-1f3ff
261d
2620
2622
2623
2626
262a
262e
262f
2638
2639
263a
2640
2642
2648
2649
";
   "264a
264b
264c
264d
264e
264f
2650
2651
2652
2653
265f
2660
2663
2665
2666
2668
267b
267e
267f
2692
2693
2694
2695
2696
2697
2699
269b
269c
26a0
26a1
26a7
26aa
26ab
26b0
26b1
26bd
26be
26c4
26c5
26c8
26ce
26cf
26d1
26d3
26d4
26e9
26ea
26f0
26f1
26f2
";
   "26f3
26f4
26f5
26f7-1f3fb
26f7-1f3fc
26f7-1f3fd
26f7-1f3fe
26f7-1f3ff
26f7
26f8
26f9-1f3fb-200d-2640-fe0f
26f9-1f3fb-200d-2642-fe0f
26f9-1f3fb
26f9-1f3fc-200d-2640-fe0f
26f9-1f3fc-200d-2642-fe0f
26f9-1f3fc
26f9-1f3fd-200d-2640-fe0f
26f9-1f3fd-200d-2642-fe0f
26f9-1f3fd
26f9-1f3fe-200d-2640-fe0f
26f9-1f3fe-200d-2642-fe0f
26f9-1f3fe
26f9-1f3ff-200d-2640-fe0f
26f9-1f3ff-200d-2642-fe0f
26f9-1f3ff
26f9-fe0f-200d-2640-fe0f
26f9-fe0f-200d-2642-fe0f
26f9
26fa
26fd
2702
2705
2708
2709
270a-1f3fb
270a-1f3fc
270a-1f3fd
270a-1f3fe
270a-1f3ff
270a
270b-1f3fb
270b-1f3fc
270b-1f3fd
270b-1f3fe
270b-1f3ff
270b
270c-1f3fb
270c-1f3fc
270c-1f3fd
270c-1f3fe
";
   "270c-1f3ff
270c
270d-1f3fb
270d-1f3fc
270d-1f3fd
270d-1f3fe
270d-1f3ff
270d
270f
2712
2714
2716
271d
2721
2728
2733
2734
2744
2747
274c
274e
2753
2754
2755
2757
2763
2764
2795
2796
2797
27a1
27b0
27bf
2934
2935
2a-20e3
2b05
2b06
2b07
2b1b
2b1c
2b50
2b55
30-20e3
3030
303d
31-20e3
32-20e3
3297
3299
";
   "33-20e3
34-20e3
35-20e3
36-20e3
37-20e3
38-20e3
39-20e3
a9
ae
e50a
"].
(** codegen/src_data/emoji_13_0_aliases.txt, cut into pieces *)
Definition emoji_aliases_txt : list string :=
  ["1f004 1f004-fe0f
1f170 1f170-fe0f
1f171 1f171-fe0f
1f17e 1f17e-fe0f
1f17f 1f17f-fe0f
1f202 1f202-fe0f
1f21a 1f21a-fe0f
1f22f 1f22f-fe0f
1f237 1f237-fe0f
1f30d 1f30d-fe0f
1f30e 1f30e-fe0f
1f30f 1f30f-fe0f
1f315 1f315-fe0f
1f31c 1f31c-fe0f
1f321 1f321-fe0f
1f324 1f324-fe0f
1f325 1f325-fe0f
1f326 1f326-fe0f
1f327 1f327-fe0f
1f328 1f328-fe0f
1f329 1f329-fe0f
1f32a 1f32a-fe0f
1f32b 1f32b-fe0f
1f32c 1f32c-fe0f
1f336 1f336-fe0f
1f378 1f378-fe0f
1f37d 1f37d-fe0f
1f393 1f393-fe0f
1f396 1f396-fe0f
1f397 1f397-fe0f
1f399 1f399-fe0f
1f39a 1f39a-fe0f
1f39b 1f39b-fe0f
1f39e 1f39e-fe0f
1f39f 1f39f-fe0f
1f3a7 1f3a7-fe0f
1f3ac 1f3ac-fe0f
1f3ad 1f3ad-fe0f
1f3ae 1f3ae-fe0f
1f3c2 1f3c2-fe0f
1f3c4 1f3c4-fe0f
1f3c6 1f3c6-fe0f
1f3ca 1f3ca-fe0f
1f3cb 1f3cb-fe0f
1f3cc 1f3cc-fe0f
1f3cd 1f3cd-fe0f
1f3ce 1f3ce-fe0f
1f3d4 1f3d4-fe0f
1f3d5 1f3d5-fe0f
1f3d6 1f3d6-fe0f
";
   "1f3d7 1f3d7-fe0f
1f3d8 1f3d8-fe0f
1f3d9 1f3d9-fe0f
1f3da 1f3da-fe0f
1f3db 1f3db-fe0f
1f3dc 1f3dc-fe0f
1f3dd 1f3dd-fe0f
1f3de 1f3de-fe0f
1f3df 1f3df-fe0f
1f3e0 1f3e0-fe0f
1f3ed 1f3ed-fe0f
1f3f3 1f3f3-fe0f
1f3f5 1f3f5-fe0f
1f3f7 1f3f7-fe0f
1f408 1f408-fe0f
1f415 1f415-fe0f
1f41f 1f41f-fe0f
1f426 1f426-fe0f
1f43f 1f43f-fe0f
1f441 1f441-fe0f
1f442 1f442-fe0f
1f446 1f446-fe0f
1f447 1f447-fe0f
1f448 1f448-fe0f
1f449 1f449-fe0f
1f44d 1f44d-fe0f
1f44e 1f44e-fe0f
1f453 1f453-fe0f
1f46a 1f46a-fe0f
1f47d 1f47d-fe0f
1f4a3 1f4a3-fe0f
1f4b0 1f4b0-fe0f
1f4b3 1f4b3-fe0f
1f4bb 1f4bb-fe0f
1f4bf 1f4bf-fe0f
1f4cb 1f4cb-fe0f
1f4da 1f4da-fe0f
1f4df 1f4df-fe0f
1f4e4 1f4e4-fe0f
1f4e5 1f4e5-fe0f
1f4e6 1f4e6-fe0f
1f4ea 1f4ea-fe0f
1f4eb 1f4eb-fe0f
1f4ec 1f4ec-fe0f
1f4ed 1f4ed-fe0f
1f4f7 1f4f7-fe0f
1f4f9 1f4f9-fe0f
1f4fa 1f4fa-fe0f
1f4fb 1f4fb-fe0f
1f4fd 1f4fd-fe0f
";
   "1f508 1f508-fe0f
1f50d 1f50d-fe0f
1f512 1f512-fe0f
1f513 1f513-fe0f
1f549 1f549-fe0f
1f54a 1f54a-fe0f
1f550 1f550-fe0f
1f551 1f551-fe0f
1f552 1f552-fe0f
1f553 1f553-fe0f
1f554 1f554-fe0f
1f555 1f555-fe0f
1f556 1f556-fe0f
1f557 1f557-fe0f
1f558 1f558-fe0f
1f559 1f559-fe0f
1f55a 1f55a-fe0f
1f55b 1f55b-fe0f
1f55c 1f55c-fe0f
1f55d 1f55d-fe0f
1f55e 1f55e-fe0f
1f55f 1f55f-fe0f
1f560 1f560-fe0f
1f561 1f561-fe0f
1f562 1f562-fe0f
1f563 1f563-fe0f
1f564 1f564-fe0f
1f565 1f565-fe0f
1f566 1f566-fe0f
1f567 1f567-fe0f
1f56f 1f56f-fe0f
1f570 1f570-fe0f
1f573 1f573-fe0f
1f574 1f574-fe0f
1f575 1f575-fe0f
1f576 1f576-fe0f
1f577 1f577-fe0f
1f578 1f578-fe0f
1f579 1f579-fe0f
1f587 1f587-fe0f
1f58a 1f58a-fe0f
1f58b 1f58b-fe0f
1f58c 1f58c-fe0f
1f58d 1f58d-fe0f
1f590 1f590-fe0f
1f5a5 1f5a5-fe0f
1f5a8 1f5a8-fe0f
1f5b1 1f5b1-fe0f
1f5b2 1f5b2-fe0f
1f5bc 1f5bc-fe0f
";
   "1f5c2 1f5c2-fe0f
1f5c3 1f5c3-fe0f
1f5c4 1f5c4-fe0f
1f5d1 1f5d1-fe0f
1f5d2 1f5d2-fe0f
1f5d3 1f5d3-fe0f
1f5dc 1f5dc-fe0f
1f5dd 1f5dd-fe0f
1f5de 1f5de-fe0f
1f5e1 1f5e1-fe0f
1f5e3 1f5e3-fe0f
1f5e8 1f5e8-fe0f
1f5ef 1f5ef-fe0f
1f5f3 1f5f3-fe0f
1f5fa 1f5fa-fe0f
1f610 1f610-fe0f
1f687 1f687-fe0f
1f68d 1f68d-fe0f
1f691 1f691-fe0f
1f694 1f694-fe0f
1f698 1f698-fe0f
1f6ad 1f6ad-fe0f
1f6b2 1f6b2-fe0f
1f6b9 1f6b9-fe0f
1f6ba 1f6ba-fe0f
1f6bc 1f6bc-fe0f
1f6cb 1f6cb-fe0f
1f6cd 1f6cd-fe0f
1f6ce 1f6ce-fe0f
1f6cf 1f6cf-fe0f
1f6e0 1f6e0-fe0f
1f6e1 1f6e1-fe0f
1f6e2 1f6e2-fe0f
1f6e3 1f6e3-fe0f
1f6e4 1f6e4-fe0f
1f6e5 1f6e5-fe0f
1f6e9 1f6e9-fe0f
1f6f0 1f6f0-fe0f
1f6f3 1f6f3-fe0f
203c 203c-fe0f
2049 2049-fe0f
2122 2122-fe0f
2139 2139-fe0f
2194 2194-fe0f
2195 2195-fe0f
2196 2196-fe0f
2197 2197-fe0f
2198 2198-fe0f
2199 2199-fe0f
21a9 21a9-fe0f
";
   "21aa 21aa-fe0f
23-20e3 23-fe0f-20e3
231a 231a-fe0f
231b 231b-fe0f
2328 2328-fe0f
23cf 23cf-fe0f
23e9 23e9-fe0f
23ea 23ea-fe0f
23ed 23ed-fe0f
23ee 23ee-fe0f
23ef 23ef-fe0f
23f1 23f1-fe0f
23f2 23f2-fe0f
23f3 23f3-fe0f
23f8 23f8-fe0f
23f9 23f9-fe0f
23fa 23fa-fe0f
24c2 24c2-fe0f
25aa 25aa-fe0f
25ab 25ab-fe0f
25b6 25b6-fe0f
25c0 25c0-fe0f
25fb 25fb-fe0f
25fc 25fc-fe0f
25fd 25fd-fe0f
25fe 25fe-fe0f
2600 2600-fe0f
2601 2601-fe0f
2602 2602-fe0f
2603 2603-fe0f
2604 2604-fe0f
260e 260e-fe0f
2611 2611-fe0f
2614 2614-fe0f
2615 2615-fe0f
2618 2618-fe0f
261d 261d-fe0f
2620 2620-fe0f
2622 2622-fe0f
2623 2623-fe0f
2626 2626-fe0f
262a 262a-fe0f
262e 262e-fe0f
262f 262f-fe0f
2638 2638-fe0f
2639 2639-fe0f
263a 263a-fe0f
2640 2640-fe0f
2642 2642-fe0f
2648 2648-fe0f
";
   "2649 2649-fe0f
264a 264a-fe0f
264b 264b-fe0f
264c 264c-fe0f
264d 264d-fe0f
264e 264e-fe0f
264f 264f-fe0f
2650 2650-fe0f
2651 2651-fe0f
2652 2652-fe0f
2653 2653-fe0f
265f 265f-fe0f
2660 2660-fe0f
2663 2663-fe0f
2665 2665-fe0f
2666 2666-fe0f
2668 2668-fe0f
267b 267b-fe0f
267e 267e-fe0f
267f 267f-fe0f
2692 2692-fe0f
2693 2693-fe0f
2694 2694-fe0f
2695 2695-fe0f
2696 2696-fe0f
2697 2697-fe0f
2699 2699-fe0f
269b 269b-fe0f
269c 269c-fe0f
26a0 26a0-fe0f
26a1 26a1-fe0f
26a7 26a7-fe0f
26aa 26aa-fe0f
26ab 26ab-fe0f
26b0 26b0-fe0f
26b1 26b1-fe0f
26bd 26bd-fe0f
26be 26be-fe0f
26c4 26c4-fe0f
26c5 26c5-fe0f
26c8 26c8-fe0f
26cf 26cf-fe0f
26d1 26d1-fe0f
26d3 26d3-fe0f
26d4 26d4-fe0f
26e9 26e9-fe0f
26ea 26ea-fe0f
26f0 26f0-fe0f
26f1 26f1-fe0f
26f2 26f2-fe0f
";
   "26f3 26f3-fe0f
26f4 26f4-fe0f
26f5 26f5-fe0f
26f7 26f7-fe0f
26f8 26f8-fe0f
26f9 26f9-fe0f
26fa 26fa-fe0f
26fd 26fd-fe0f
2702 2702-fe0f
2708 2708-fe0f
2709 2709-fe0f
270c 270c-fe0f
270d 270d-fe0f
270f 270f-fe0f
2712 2712-fe0f
2714 2714-fe0f
2716 2716-fe0f
271d 271d-fe0f
2721 2721-fe0f
2733 2733-fe0f
2734 2734-fe0f
2744 2744-fe0f
2747 2747-fe0f
2753 2753-fe0f
2757 2757-fe0f
2763 2763-fe0f
2764 2764-fe0f
27a1 27a1-fe0f
2934 2934-fe0f
2935 2935-fe0f
2a-20e3 2a-fe0f-20e3
2b05 2b05-fe0f
2b06 2b06-fe0f
2b07 2b07-fe0f
2b1b 2b1b-fe0f
2b1c 2b1c-fe0f
2b50 2b50-fe0f
2b55 2b55-fe0f
30-20e3 30-fe0f-20e3
3030 3030-fe0f
303d 303d-fe0f
31-20e3 31-fe0f-20e3
32-20e3 32-fe0f-20e3
3297 3297-fe0f
3299 3299-fe0f
33-20e3 33-fe0f-20e3
34-20e3 34-fe0f-20e3
35-20e3 35-fe0f-20e3
36-20e3 36-fe0f-20e3
37-20e3 37-fe0f-20e3
";
   "38-20e3 38-fe0f-20e3
39-20e3 39-fe0f-20e3
a9 a9-fe0f
ae ae-fe0f
"].
(** codegen/src_data/hanzi_core2020_g_index.txt, cut into pieces *)
Definition hanzi_index_txt : list string :=
  ["3447
344A
356E
360E
364D
3658
3666
36C3
36DA
36F9
37C3
3807
3813
3918
3944
39D0
39D1
39DF
3AF0
3B0A
3B0E
3B1A
3B4E
3B55
3BBE
3C00
3CC7
3CD8
3CDA
3D14
3D50
3DB2
3E06
3E0C
3E84
3EEC
3F4F
3FE0
4056
40AE
40C5
40CE
415F
4339
4383
4396
43DD
43E1
43F2
4403
";
   "44D6
44DB
44E8
44EB
44EC
45D6
45DB
45EA
45F4
4723
4759
48B5
48BA
48BC
48C5
48D3
48D8
497D
4983
49D1
4C9F
4CA0
4CA2
4D13
4D14
4D15
4D16
4D17
4D18
4D19
4DAE
4E00
4E01
4E03
4E07
4E08
4E09
4E0A
4E0B
4E0C
4E0D
4E0E
4E0F
4E10
4E11
4E13
4E14
4E15
4E16
4E18
";
   "4E19
4E1A
4E1B
4E1C
4E1D
4E1E
4E22
4E24
4E25
4E27
4E28
4E2A
4E2B
4E2C
4E2D
4E30
4E32
4E34
4E36
4E38
4E39
4E3A
4E3B
4E3D
4E3E
4E3F
4E42
4E43
4E45
4E47
4E48
4E49
4E4B
4E4C
4E4D
4E4E
4E4F
4E50
4E52
4E53
4E54
4E56
4E58
4E59
4E5C
4E5D
4E5E
4E5F
4E60
4E61
";
   "4E66
4E69
4E70
4E71
4E73
4E78
4E7E
4E86
4E88
4E89
4E8B
4E8C
4E8D
4E8E
4E8F
4E91
4E92
4E93
4E94
4E95
4E98
4E9A
4E9B
4E9F
4EA0
4EA1
4EA2
4EA4
4EA5
4EA6
4EA7
4EA8
4EA9
4EAB
4EAC
4EAD
4EAE
4EB2
4EB3
4EB5
4EB6
4EB8
4EB9
4EBA
4EBB
4EBF
4EC0
4EC1
4EC2
4EC3
";
   "4EC4
4EC5
4EC6
4EC7
4EC9
4ECA
4ECB
4ECD
4ECE
4ED1
4ED3
4ED4
4ED5
4ED6
4ED7
4ED8
4ED9
4EDD
4EDE
4EDF
4EE1
4EE3
4EE4
4EE5
4EE8
4EEA
4EEB
4EEC
4EF0
4EF2
4EF3
4EF5
4EF6
4EF7
4EFB
4EFD
4EFF
4F01
4F08
4F09
4F0A
4F0B
4F0D
4F0E
4F0F
4F10
4F11
4F17
4F18
4F19
";
   "4F1A
4F1B
4F1E
4F1F
4F20
4F22
4F23
4F24
4F25
4F26
4F27
4F2A
4F2B
4F2D
4F2F
4F30
4F32
4F34
4F36
4F38
4F3A
4F3C
4F3D
4F3E
4F41
4F43
4F46
4F4D
4F4E
4F4F
4F50
4F51
4F53
4F55
4F56
4F57
4F58
4F59
4F5A
4F5B
4F5C
4F5D
4F5E
4F5F
4F60
4F63
4F64
4F65
4F67
4F69
";
   "4F6C
4F6F
4F70
4F73
4F74
4F76
4F78
4F7A
4F7B
4F7C
4F7D
4F7E
4F7F
4F81
4F82
4F83
4F84
4F88
4F89
4F8B
4F8D
4F8F
4F91
4F94
4F97
4F98
4F9B
4F9D
4FA0
4FA3
4FA5
4FA6
4FA7
4FA8
4FA9
4FAA
4FAC
4FAE
4FAF
4FB4
4FB5
4FB9
4FBF
4FC3
4FC4
4FC5
4FCA
4FCD
4FCE
4FCF
";
   "4FD0
4FD1
4FD7
4FD8
4FD9
4FDA
4FDC
4FDD
4FDE
4FDF
4FE1
4FE3
4FE6
4FE8
4FE9
4FEA
4FEB
4FED
4FEE
4FEF
4FF1
4FF3
4FF5
4FF6
4FF8
4FFA
4FFE
500C
500D
500F
5012
5013
5014
5015
5018
5019
501A
501C
501E
501F
5021
5025
5026
5027
5028
5029
502A
502C
502D
502E
";
   "5034
503A
503B
503C
503E
5041
5043
5047
5048
504C
504E
504F
5053
5055
505A
505C
5061
5065
506C
506D
5070
5072
5076
5077
507B
507E
507F
5080
5083
5085
5088
5089
508D
5092
5095
50A3
50A5
50A7
50A8
50A9
50AC
50B2
50BA
50BB
50C7
50CE
50CF
50D4
50D6
50DA
";
   "50E6
50E7
50EC
50ED
50EE
50F0
50F3
50F5
50FB
5106
5107
510B
5112
5121
5126
5133
5134
513F
5140
5141
5143
5144
5145
5146
5148
5149
514B
514D
5151
5154
5155
5156
515A
515C
5162
5165
5168
516B
516C
516D
516E
5170
5171
5173
5174
5175
5176
5177
5178
5179
";
   "517B
517C
517D
5180
5181
5182
5185
5188
5189
518C
518D
518F
5192
5194
5195
5196
5197
5199
519B
519C
51A0
51A2
51A4
51A5
51AB
51AC
51AE
51AF
51B0
51B1
51B2
51B3
51B5
51B6
51B7
51BB
51BC
51BD
51C0
51C4
51C6
51C7
51C9
51CB
51CC
51CF
51D1
51D3
51D8
51DB
";
   "51DD
51E0
51E1
51E4
51EB
51ED
51EF
51F0
51F3
51F5
51F6
51F8
51F9
51FA
51FB
51FC
51FD
51FF
5200
5201
5202
5203
5206
5207
5208
520A
520D
520E
5211
5212
5216
5217
5218
5219
521A
521B
521D
5220
5224
5228
5229
522B
522C
522D
522E
5230
5233
5236
5237
5238
";
   "5239
523A
523B
523D
523F
5240
5241
5242
5243
5245
524A
524B
524C
524D
5250
5251
5254
5255
5256
525C
525E
525F
5261
5265
5267
5269
526A
526F
5272
527D
527F
5281
5282
5284
5288
5290
5293
529B
529D
529E
529F
52A0
52A1
52A2
52A3
52A8
52A9
52AA
52AB
52AC
";
   "52AD
52B1
52B2
52B3
52BC
52BE
52BF
52C3
52C7
52C9
52CB
52CD
52D0
52D2
52D4
52D6
52D8
52DA
52DF
52E0
52E4
52F0
52F9
52FA
52FE
52FF
5300
5305
5306
5308
530D
530F
5310
5315
5316
5317
5319
531A
531C
531D
5320
5321
5323
5326
532A
532E
5339
533A
533B
533C
";
   "533E
533F
5341
5343
5345
5347
5348
5349
534A
534E
534F
5351
5352
5353
5355
5356
5357
535A
535C
535E
535F
5360
5361
5362
5363
5364
5366
5367
5369
536B
536C
536E
536F
5370
5371
5373
5374
5375
5377
5378
537A
537F
5382
5384
5385
5386
5389
538B
538C
538D
";
   "5395
5396
5398
539A
539D
539F
53A2
53A3
53A5
53A6
53A8
53A9
53AE
53B6
53BB
53BE
53BF
53C1
53C2
53C6
53C7
53C8
53C9
53CA
53CB
53CC
53CD
53D1
53D4
53D5
53D6
53D7
53D8
53D9
53DA
53DB
53DF
53E0
53E3
53E4
53E5
53E6
53E8
53E9
53EA
53EB
53EC
53ED
53EE
53EF
";
   "53F0
53F1
53F2
53F3
53F5
53F6
53F7
53F8
53F9
53FB
53FC
53FD
5401
5403
5404
5406
5408
5409
540A
540C
540D
540E
540F
5410
5411
5412
5413
5415
5416
5417
541B
541D
541E
541F
5420
5421
5423
5426
5427
5428
5429
542B
542C
542D
542E
542F
5431
5432
5434
5435
";
   "5438
5439
543B
543C
543D
543E
5440
5443
5446
5447
5448
544A
544B
5450
5452
5453
5454
5455
5456
5457
5458
5459
545B
545C
5462
5463
5464
5466
5468
5471
5472
5473
5475
5476
5477
5478
547B
547C
547D
5480
5482
5484
5486
5487
5489
548B
548C
548D
548E
548F
";
   "5490
5492
5494
5495
5496
5499
549A
549B
549D
54A1
54A3
54A4
54A5
54A6
54A7
54A8
54A9
54AA
54AB
54AC
54AD
54AF
54B1
54B3
54B4
54B8
54BA
54BB
54BD
54BF
54C0
54C1
54C2
54C3
54C4
54C6
54C7
54C8
54C9
54CC
54CD
54CE
54CF
54D0
54D1
54D2
54D3
54D4
54D5
54D7
";
   "54D9
54DA
54DC
54DD
54DE
54DF
54E2
54E5
54E6
54E7
54E8
54E9
54EA
54ED
54EE
54F1
54F2
54F3
54FA
54FC
54FD
54FF
5501
5506
5507
5509
550F
5510
5511
5514
551B
551D
5520
5522
5523
5524
5527
552A
552C
552E
552F
5530
5531
5533
5535
5537
553C
553E
553F
5541
";
   "5543
5544
5546
5549
554A
5550
5555
5556
555C
5561
5564
5565
5566
5567
556A
556B
556C
556D
556E
5570
5574
5575
5576
5577
5578
557B
557C
557E
5580
5581
5582
5583
5584
5586
5587
5588
5589
558A
558B
558F
5591
5594
5598
5599
559C
559D
559F
55A4
55A7
55B1
";
   "55B3
55B5
55B7
55B9
55BB
55BD
55BE
55C4
55C5
55C9
55CC
55CD
55D0
55D1
55D2
55D3
55D4
55D6
55DC
55DD
55DE
55DF
55E1
55E3
55E4
55E5
55E6
55E8
55EA
55EB
55EC
55EF
55F2
55F3
55F5
55F7
55FD
55FE
5600
5601
5608
5609
560C
560E
560F
5618
561A
561B
561E
561F
";
   "5621
5623
5624
5627
562C
562D
5631
5632
5634
5636
5639
563B
563F
5640
5642
5647
564C
564D
564E
5654
5657
5658
5659
565C
5662
5664
5668
5669
566A
566B
566C
5671
5676
567B
567C
5684
5685
5686
568E
568F
5693
569A
56A3
56AD
56AF
56B7
56BC
56CA
56D4
56D7
";
   "56DA
56DB
56DD
56DE
56DF
56E0
56E1
56E2
56E4
56EB
56ED
56F0
56F1
56F4
56F5
56F7
56F9
56FA
56FD
56FE
56FF
5703
5704
5706
5708
5709
570A
570C
5710
5719
571C
571F
5722
5723
5728
5729
572A
572B
572C
572D
572E
572F
5730
5732
5733
5739
573A
573B
573E
5740
";
   "5742
5747
5749
574A
574B
574C
574D
574E
574F
5750
5751
5752
5757
575A
575B
575C
575D
575E
575F
5760
5761
5764
5765
5766
5768
5769
576A
576B
576C
576D
576F
5770
5773
5776
5777
577B
577C
577D
5782
5783
5784
5785
5786
5788
578B
578C
578D
578E
578F
5792
";
   "5793
5795
5799
579A
579B
579E
579F
57A0
57A1
57A2
57A3
57A4
57A6
57A7
57A9
57AB
57AD
57AE
57AF
57B1
57B2
57B4
57B5
57B8
57BA
57BE
57BF
57C2
57C3
57C6
57C7
57CB
57CC
57CE
57CF
57D2
57D4
57D5
57D7
57D8
57D9
57DA
57DD
57DF
57E0
57E4
57EA
57EB
57ED
57EF
";
   "57F4
57F5
57F8
57F9
57FA
57FC
57FD
5800
5802
5803
5806
5807
5809
580B
580C
580D
580E
5810
5811
5815
5819
581E
5820
5821
5824
5827
5828
582A
5830
5832
5835
583C
583D
583E
5843
5844
5845
5846
5848
584C
584D
5851
5854
5858
585D
585E
5865
586B
586C
586E
";
   "5871
587E
5880
5881
5883
5885
5888
5889
5890
5892
5893
5895
5898
5899
589A
589E
589F
58A1
58A3
58A6
58A8
58A9
58BC
58C1
58C5
58D1
58D5
58E4
58EB
58EC
58EE
58F0
58F3
58F6
58F8
58F9
5902
5904
5907
590D
590F
5910
5914
5915
5916
5919
591A
591C
591F
5924
";
   "5925
5927
5929
592A
592B
592C
592D
592E
592F
5931
5934
5937
5938
5939
593A
593C
5941
5942
5944
5947
5948
5949
594B
594E
594F
5951
5953
5954
5955
5956
5957
5958
595A
5960
5961
5962
5965
596D
5973
5974
5976
5978
5979
597D
5981
5982
5983
5984
5986
5987
";
   "5988
598A
598D
5992
5993
5996
5997
5998
5999
599E
59A3
59A4
59A5
59A7
59A8
59A9
59AA
59AB
59AD
59AE
59AF
59B2
59B9
59BB
59BE
59C6
59C8
59CA
59CB
59D0
59D1
59D2
59D3
59D4
59D7
59D8
59DA
59DC
59DD
59DE
59E3
59E4
59E5
59E8
59EC
59EE
59F1
59F6
59F9
59FB
";
   "59FD
59FF
5A00
5A01
5A03
5A04
5A05
5A06
5A07
5A08
5A09
5A0C
5A11
5A13
5A18
5A1C
5A1F
5A20
5A23
5A25
5A29
5A31
5A32
5A34
5A35
5A36
5A3C
5A40
5A46
5A49
5A4A
5A4C
5A4D
5A55
5A58
5A5A
5A5E
5A60
5A62
5A64
5A67
5A6A
5A6B
5A73
5A74
5A75
5A76
5A77
5A7A
5A7B
";
   "5A7C
5A7F
5A82
5A84
5A86
5A92
5A93
5A96
5A9A
5A9B
5A9E
5AAA
5AAD
5AB1
5AB2
5AB3
5AB5
5AB8
5ABE
5AC1
5AC2
5AC4
5AC9
5ACC
5AD2
5AD4
5AD5
5AD6
5AD8
5ADA
5ADC
5AE0
5AE1
5AE3
5AE6
5AE9
5AEA
5AEB
5AED
5AF1
5AFD
5B09
5B16
5B17
5B1B
5B25
5B2C
5B32
5B34
5B37
";
   "5B3F
5B40
5B45
5B50
5B51
5B53
5B54
5B55
5B56
5B57
5B58
5B59
5B5A
5B5B
5B5C
5B5D
5B5F
5B62
5B63
5B64
5B65
5B66
5B69
5B6A
5B6C
5B70
5B71
5B73
5B75
5B7A
5B7D
5B80
5B81
5B83
5B84
5B85
5B87
5B88
5B89
5B8B
5B8C
5B8F
5B93
5B95
5B97
5B98
5B99
5B9A
5B9B
5B9C
";
   "5B9D
5B9E
5BA0
5BA1
5BA2
5BA3
5BA4
5BA5
5BA6
5BA7
5BAA
5BAB
5BAC
5BB0
5BB3
5BB4
5BB5
5BB6
5BB8
5BB9
5BBD
5BBE
5BBF
5BC1
5BC2
5BC4
5BC5
5BC6
5BC7
5BCC
5BD0
5BD2
5BD3
5BDD
5BDE
5BDF
5BE1
5BE4
5BE5
5BE8
5BEE
5BF0
5BF8
5BF9
5BFA
5BFB
5BFC
5BFF
5C01
5C04
";
   "5C06
5C09
5C0A
5C0F
5C11
5C14
5C15
5C16
5C18
5C1A
5C1C
5C1D
5C22
5C24
5C25
5C27
5C28
5C2A
5C2C
5C31
5C34
5C38
5C39
5C3A
5C3B
5C3C
5C3D
5C3E
5C3F
5C40
5C41
5C42
5C43
5C45
5C48
5C49
5C4A
5C4B
5C4E
5C4F
5C50
5C51
5C55
5C59
5C5E
5C60
5C61
5C63
5C65
5C66
";
   "5C6E
5C6F
5C71
5C79
5C7A
5C7C
5C7E
5C7F
5C81
5C82
5C88
5C8A
5C8C
5C8D
5C90
5C91
5C94
5C96
5C97
5C98
5C99
5C9A
5C9B
5C9C
5C9E
5CA0
5CA2
5CA3
5CA8
5CA9
5CAB
5CAC
5CAD
5CB1
5CB3
5CB5
5CB7
5CB8
5CBD
5CBF
5CC1
5CC2
5CC3
5CC4
5CCB
5CD2
5CD7
5CD8
5CD9
5CDB
";
   "5CE1
5CE3
5CE4
5CE5
5CE6
5CE7
5CE8
5CEA
5CED
5CF0
5CF1
5CFB
5CFF
5D00
5D01
5D02
5D03
5D04
5D06
5D07
5D0C
5D0E
5D12
5D14
5D16
5D1A
5D1B
5D1E
5D1F
5D21
5D24
5D26
5D27
5D29
5D2D
5D2E
5D34
5D36
5D3D
5D3E
5D3F
5D41
5D45
5D47
5D4A
5D4B
5D4C
5D4E
5D56
5D58
";
   "5D5A
5D5B
5D5D
5D69
5D6B
5D6C
5D6F
5D72
5D74
5D82
5D85
5D8D
5D92
5D93
5D99
5D9D
5D9F
5DA6
5DB2
5DB7
5DC5
5DC7
5DC9
5DCD
5DDB
5DDD
5DDE
5DE1
5DE2
5DE5
5DE6
5DE7
5DE8
5DE9
5DEB
5DEE
5DEF
5DF1
5DF2
5DF3
5DF4
5DF7
5DFD
5DFE
5E01
5E02
5E03
5E05
5E06
5E08
";
   "5E0C
5E0F
5E10
5E11
5E14
5E15
5E16
5E18
5E19
5E1A
5E1B
5E1C
5E1D
5E21
5E26
5E27
5E28
5E2D
5E2E
5E31
5E37
5E38
5E3B
5E3C
5E3D
5E42
5E44
5E45
5E4C
5E54
5E55
5E56
5E5B
5E5E
5E61
5E62
5E6A
5E72
5E73
5E74
5E76
5E78
5E7A
5E7B
5E7C
5E7D
5E7F
5E80
5E84
5E86
";
   "5E87
5E8A
5E8B
5E8F
5E90
5E91
5E93
5E94
5E95
5E96
5E97
5E99
5E9A
5E9C
5E9E
5E9F
5EA0
5EA4
5EA5
5EA6
5EA7
5EAD
5EB1
5EB3
5EB5
5EB6
5EB7
5EB8
5EB9
5EBC
5EBE
5EC6
5EC9
5ECA
5ECB
5ED1
5ED2
5ED3
5ED6
5ED9
5EDB
5EE8
5EEA
5EF4
5EF6
5EF7
5EFA
5EFE
5EFF
5F00
";
   "5F01
5F02
5F03
5F04
5F06
5F07
5F08
5F0A
5F0B
5F0F
5F11
5F13
5F15
5F17
5F18
5F1B
5F1F
5F20
5F22
5F25
5F26
5F27
5F28
5F29
5F2A
5F2D
5F2F
5F31
5F36
5F38
5F39
5F3A
5F3C
5F40
5F50
5F52
5F53
5F55
5F56
5F57
5F58
5F5D
5F5F
5F61
5F62
5F64
5F66
5F67
5F69
5F6A
";
   "5F6C
5F6D
5F70
5F71
5F73
5F77
5F79
5F7B
5F7C
5F80
5F81
5F82
5F84
5F85
5F87
5F88
5F89
5F8A
5F8B
5F8C
5F90
5F92
5F95
5F97
5F98
5F99
5F9B
5F9C
5FA1
5FA8
5FAA
5FAD
5FAE
5FB5
5FB7
5FBC
5FBD
5FC3
5FC4
5FC5
5FC6
5FC9
5FCC
5FCD
5FCF
5FD0
5FD1
5FD2
5FD6
5FD7
";
   "5FD8
5FD9
5FDD
5FDE
5FE0
5FE1
5FE4
5FE7
5FEA
5FEB
5FED
5FEE
5FF1
5FF3
5FF5
5FF8
5FFA
5FFB
5FFD
5FFE
5FFF
6000
6001
6002
6003
6004
6005
6006
600A
600D
600E
600F
6012
6014
6015
6016
6019
601B
601C
601D
6020
6021
6025
6026
6027
6028
6029
602A
602B
602F
";
   "6035
603B
603C
603F
6041
6042
6043
604B
604D
6050
6052
6053
6054
6055
6059
605A
605D
6062
6063
6064
6067
6068
6069
606A
606B
606C
606D
606F
6070
6073
6076
6078
6079
607A
607B
607C
607D
607F
6083
6084
6086
6088
6089
608C
608D
6092
6094
6096
609A
609B
";
   "609D
609F
60A0
60A2
60A3
60A6
60A8
60AB
60AC
60AD
60AF
60B0
60B1
60B2
60B4
60B8
60BB
60BC
60C5
60C6
60C7
60CA
60CB
60CE
60D1
60D4
60D5
60D8
60D9
60DA
60DB
60DC
60DD
60DF
60E0
60E6
60E7
60E8
60E9
60EB
60EC
60ED
60EE
60EF
60F0
60F3
60F4
60F6
60F9
60FA
";
   "6100
6101
6103
6106
6108
6109
610D
610E
610F
6110
6114
6115
611A
611F
6120
6123
6124
6126
6127
612B
612D
613F
6146
6148
614A
614C
614E
6151
6155
615D
6162
6165
6167
6168
616C
616D
6170
6175
6177
618B
618E
6194
6195
6199
619D
61A7
61A8
61A9
61AC
61AD
";
   "61B7
61BA
61BE
61C2
61C8
61CA
61CB
61D1
61D2
61D4
61E6
61F5
61FF
6206
6208
620A
620B
620C
620D
620E
620F
6210
6211
6212
6215
6216
6217
6218
621A
621B
621F
6221
6222
6223
6224
6225
622A
622C
622D
622E
6233
6234
6237
623D
623E
623F
6240
6241
6242
6243
";
   "6245
6246
6247
6248
6249
624A
624B
624C
624D
624E
6251
6252
6253
6254
6258
625B
625E
6263
6266
6267
6269
626A
626B
626C
626D
626E
626F
6270
6273
6276
6279
627A
627C
627D
627E
627F
6280
6283
6284
6289
628A
6291
6292
6293
6294
6295
6296
6297
6298
629A
";
   "629B
629F
62A0
62A1
62A2
62A4
62A5
62A8
62AB
62AC
62B1
62B5
62B9
62BB
62BC
62BD
62BF
62C2
62C3
62C4
62C5
62C6
62C7
62C8
62C9
62CA
62CC
62CD
62CE
62D0
62D2
62D3
62D4
62D6
62D7
62D8
62D9
62DA
62DB
62DC
62DF
62E2
62E3
62E4
62E5
62E6
62E7
62E8
62E9
62EC
";
   "62ED
62EE
62EF
62F1
62F3
62F4
62F6
62F7
62FC
62FD
62FE
62FF
6301
6302
6307
6308
6309
630E
6311
6313
6316
631A
631B
631D
631E
631F
6320
6321
6322
6323
6324
6325
6326
6328
632A
632B
632F
6332
6339
633A
633D
6342
6343
6345
6346
6349
634B
634C
634D
634E
";
   "634F
6350
6355
635E
635F
6361
6362
6363
6367
6369
636D
636E
636F
6371
6376
6377
637A
637B
637D
6380
6382
6387
6388
6389
638A
638C
638E
638F
6390
6392
6396
6398
639E
63A0
63A2
63A3
63A5
63A7
63A8
63A9
63AA
63AC
63AD
63AE
63B0
63B3
63B4
63B7
63B8
63BA
";
   "63BC
63BE
63C4
63C6
63C9
63CD
63CE
63CF
63D0
63D2
63D5
63D6
63DE
63E0
63E1
63E3
63E9
63EA
63ED
63F2
63F3
63F4
63F6
63F8
63FD
63FE
63FF
6400
6401
6402
6405
640B
640C
640F
6410
6412
6413
6414
641B
641C
641E
6420
6421
6426
642A
642C
642D
6434
643A
643D
";
   "643F
6441
6444
6445
6446
6447
6448
644A
644F
6452
6454
6458
645B
645E
6467
6469
646D
6474
6478
6479
647A
647D
6482
6484
6485
6487
6491
6492
6495
6496
6499
649E
64A4
64A9
64AC
64AD
64AE
64B0
64B5
64B7
64B8
64BA
64BC
64C0
64C2
64C5
64CD
64CE
64D0
64D2
";
   "64D7
64D8
64DE
64E2
64E4
64E6
64FF
6500
6509
6512
6518
6525
652B
652E
652F
6534
6535
6536
6538
6539
653B
653D
653E
653F
6545
6548
6549
654C
654F
6551
6554
6555
6556
6559
655B
655D
655E
6562
6563
6566
6569
656B
656C
6570
6572
6574
6577
6587
658B
658C
";
   "6590
6591
6593
6597
6599
659B
659C
659D
659F
65A0
65A1
65A4
65A5
65A7
65A9
65AB
65AD
65AF
65B0
65B6
65B9
65BC
65BD
65C1
65C3
65C4
65C5
65C6
65CB
65CC
65CE
65CF
65D0
65D2
65D6
65D7
65DE
65E0
65E2
65E5
65E6
65E7
65E8
65E9
65EC
65ED
65EE
65EF
65F0
65F1
";
   "65F4
65F5
65F6
65F7
65F8
65FA
65FB
65FF
6600
6602
6603
6604
6606
6607
6608
6609
660A
660C
660E
660F
6612
6613
6614
6615
6619
661D
661F
6620
6621
6623
6624
6625
6627
6628
662A
662B
662D
662F
6631
6633
6634
6635
6636
663A
663C
663D
663E
6641
6643
6645
";
   "664A
664B
664C
664F
6650
6652
6653
6654
6655
6656
6657
6659
665A
665E
665F
6661
6662
6664
6666
6668
666A
666B
666E
666F
6670
6671
6674
6676
6677
667A
667E
6682
6684
6685
6687
668C
6691
6695
6696
6697
669D
66A7
66A8
66AE
66B2
66B4
66B5
66B6
66B9
66BE
";
   "66BF
66C8
66CC
66D9
66DB
66DC
66DD
66E6
66E9
66F0
66F2
66F3
66F4
66F7
66F9
66FC
66FE
66FF
6700
6708
6709
670A
670B
670D
670F
6710
6713
6714
6715
6717
6718
671B
671D
671F
6726
6728
672A
672B
672C
672D
672F
6731
6733
6734
6735
6738
673A
673D
6740
6742
";
   "6743
6744
6746
6748
6749
674C
674E
674F
6750
6751
6753
6755
6756
6759
675C
675E
675F
6760
6761
6765
6767
6768
6769
676A
676D
676F
6770
6772
6773
6775
6777
677B
677C
677E
677F
6781
6784
6785
6787
6789
678B
678D
6790
6795
6797
6798
679A
679C
679D
679E
";
   "67A2
67A3
67A5
67A7
67A8
67AA
67AB
67AD
67AF
67B0
67B2
67B3
67B5
67B6
67B7
67B8
67B9
67C1
67C3
67C4
67C8
67CA
67CF
67D0
67D1
67D2
67D3
67D4
67D6
67D8
67D9
67DA
67DC
67DD
67DE
67E0
67E2
67E5
67E9
67EC
67EF
67F0
67F1
67F3
67F4
67F7
67FD
67FF
6800
6805
";
   "6807
6808
6809
680A
680B
680C
680E
680F
6810
6811
6812
6813
6816
6817
681D
681F
6821
6829
682A
6832
6833
6834
6837
6838
6839
683B
683C
683D
683E
6840
6841
6842
6843
6844
6845
6846
6848
6849
684A
684C
684E
6850
6851
6853
6854
6855
6860
6861
6862
6863
";
   "6864
6865
6866
6867
6868
6869
686B
686F
6872
6874
6876
6877
6879
6881
6883
6885
6886
688C
688F
6893
6897
68A0
68A2
68A3
68A6
68A7
68A8
68AD
68AF
68B0
68B3
68B4
68B5
68BC
68BD
68BE
68BF
68C0
68C1
68C2
68C9
68CB
68CD
68D0
68D2
68D3
68D5
68D8
68DA
68E0
";
   "68E3
68E4
68E8
68EA
68EB
68EC
68EE
68F0
68F1
68F5
68F9
68FA
68FB
68FC
68FD
6900
6901
6905
6906
690B
690D
690E
6910
6911
6912
6913
691F
6920
6924
692A
692D
6930
6934
6938
6939
693D
693F
6942
6952
6954
6957
6959
695A
695D
695E
6960
6963
6966
6969
696A
";
   "696B
696E
696F
6971
6977
6978
6979
697C
6980
6982
6983
6984
6985
6986
6987
6988
6989
698D
6991
6994
6995
6996
6998
699B
699C
69A7
69A8
69AB
69AD
69B0
69B1
69B4
69B7
69BB
69C1
69C3
69CA
69CC
69CE
69D0
69D4
69DA
69DB
69DC
69DF
69E0
69ED
69F1
69F2
69FD
";
   "69FF
6A0A
6A17
6A18
6A1F
6A21
6A28
6A2A
6A2F
6A31
6A35
6A3D
6A3E
6A44
6A47
6A50
6A51
6A58
6A59
6A5B
6A5E
6A61
6A65
6A66
6A71
6A79
6A7C
6A80
6A84
6A8E
6A90
6A91
6A97
6A9E
6AA0
6AA9
6AAB
6AAC
6AB5
6AC6
6B02
6B20
6B21
6B22
6B23
6B24
6B27
6B32
6B37
6B38
";
   "6B39
6B3A
6B3B
6B3E
6B43
6B45
6B46
6B47
6B49
6B4C
6B59
6B62
6B63
6B64
6B65
6B66
6B67
6B6A
6B79
6B7B
6B7C
6B81
6B82
6B83
6B84
6B86
6B87
6B89
6B8A
6B8B
6B8D
6B92
6B93
6B96
6B9A
6B9B
6BA1
6BA3
6BAA
6BB3
6BB4
6BB5
6BB7
6BBF
6BC1
6BC2
6BC5
6BCB
6BCC
6BCD
";
   "6BCF
6BD0
6BD2
6BD3
6BD4
6BD5
6BD6
6BD7
6BD9
6BDB
6BE1
6BEA
6BEB
6BEF
6BF3
6BF5
6BF9
6BFD
6C05
6C06
6C07
6C0D
6C0F
6C10
6C11
6C13
6C14
6C15
6C16
6C18
6C19
6C1A
6C1B
6C1F
6C21
6C22
6C24
6C26
6C27
6C28
6C29
6C2A
6C2E
6C2F
6C30
6C32
6C34
6C35
6C38
6C3D
";
   "6C3E
6C3F
6C40
6C41
6C42
6C46
6C47
6C48
6C49
6C4A
6C4B
6C50
6C54
6C55
6C57
6C5B
6C5C
6C5D
6C5E
6C5F
6C60
6C61
6C64
6C67
6C68
6C69
6C6A
6C6B
6C6D
6C70
6C72
6C74
6C76
6C79
6C7D
6C7E
6C81
6C82
6C83
6C84
6C85
6C86
6C87
6C88
6C89
6C8C
6C8F
6C90
6C93
6C94
";
   "6C98
6C99
6C9A
6C9B
6C9F
6CA1
6CA3
6CA4
6CA5
6CA6
6CA7
6CA8
6CA9
6CAA
6CAB
6CAD
6CAE
6CB1
6CB2
6CB3
6CB8
6CB9
6CBA
6CBB
6CBC
6CBD
6CBE
6CBF
6CC2
6CC3
6CC4
6CC5
6CC7
6CC9
6CCA
6CCC
6CD0
6CD3
6CD4
6CD5
6CD6
6CD7
6CD9
6CDA
6CDB
6CDC
6CDE
6CE0
6CE1
6CE2
";
   "6CE3
6CE5
6CE8
6CEA
6CEB
6CEE
6CEF
6CF0
6CF1
6CF3
6CF5
6CF6
6CF7
6CF8
6CFA
6CFB
6CFC
6CFD
6CFE
6D01
6D04
6D07
6D08
6D0B
6D0C
6D0E
6D11
6D12
6D13
6D17
6D18
6D19
6D1A
6D1B
6D1E
6D22
6D23
6D25
6D27
6D28
6D2A
6D2B
6D2D
6D2E
6D31
6D32
6D33
6D34
6D35
6D38
";
   "6D39
6D3A
6D3B
6D3C
6D3D
6D3E
6D3F
6D41
6D43
6D45
6D46
6D47
6D48
6D49
6D4A
6D4B
6D4D
6D4E
6D4F
6D50
6D51
6D52
6D53
6D54
6D55
6D59
6D5A
6D5B
6D5C
6D5E
6D5F
6D60
6D61
6D63
6D65
6D66
6D69
6D6A
6D6C
6D6D
6D6E
6D6F
6D70
6D72
6D74
6D77
6D78
6D7C
6D82
6D84
";
   "6D85
6D88
6D89
6D8C
6D8D
6D8E
6D90
6D91
6D93
6D94
6D95
6D98
6D9B
6D9D
6D9E
6D9F
6DA0
6DA1
6DA2
6DA3
6DA4
6DA6
6DA7
6DA8
6DA9
6DAA
6DAB
6DAE
6DAF
6DB2
6DB4
6DB5
6DB8
6DBF
6DC0
6DC4
6DC5
6DC6
6DC7
6DCB
6DCC
6DCF
6DD1
6DD6
6DD8
6DD9
6DDC
6DDD
6DDE
6DDF
";
   "6DE0
6DE1
6DE4
6DE6
6DEB
6DEC
6DEE
6DEF
6DF1
6DF3
6DF4
6DF7
6DF9
6DFB
6DFC
6E05
6E0A
6E0C
6E0D
6E0E
6E10
6E11
6E14
6E16
6E17
6E1A
6E1D
6E1F
6E20
6E21
6E23
6E24
6E25
6E29
6E2B
6E2D
6E2F
6E30
6E32
6E34
6E38
6E3A
6E3C
6E43
6E44
6E49
6E4D
6E4E
6E51
6E53
";
   "6E54
6E56
6E58
6E5B
6E5C
6E5D
6E5F
6E63
6E68
6E6B
6E6E
6E72
6E74
6E7E
6E7F
6E81
6E83
6E85
6E86
6E87
6E89
6E8D
6E8F
6E90
6E98
6E9A
6E9C
6E9E
6E9F
6EA0
6EA2
6EA5
6EA6
6EA7
6EAA
6EAF
6EB1
6EB2
6EB4
6EB5
6EB6
6EB7
6EB9
6EBA
6EBB
6EBD
6EC1
6EC2
6EC3
6EC6
";
   "6EC7
6EC9
6ECB
6ECD
6ECF
6ED1
6ED3
6ED4
6ED5
6ED7
6ED8
6EDA
6EDE
6EDF
6EE0
6EE1
6EE2
6EE4
6EE5
6EE6
6EE7
6EE8
6EE9
6EEA
6EEB
6EF4
6EF9
6F02
6F06
6F08
6F09
6F0B
6F0F
6F13
6F14
6F15
6F16
6F20
6F24
6F26
6F29
6F2A
6F2B
6F2D
6F2F
6F31
6F33
6F34
6F36
6F37
";
   "6F39
6F3B
6F3C
6F3E
6F46
6F47
6F4B
6F4D
6F4F
6F56
6F58
6F5C
6F5E
6F5F
6F62
6F66
6F69
6F6D
6F6E
6F72
6F74
6F75
6F78
6F7A
6F7C
6F7D
6F7E
6F82
6F84
6F88
6F89
6F8C
6F8D
6F8E
6F9B
6F9C
6FA1
6FA5
6FA7
6FAA
6FAD
6FB3
6FB4
6FB6
6FB9
6FBC
6FBD
6FC0
6FC2
6FC9
";
   "6FCB
6FD1
6FD2
6FDE
6FE0
6FE1
6FE9
6FEE
6FEF
700C
700D
7011
7014
701A
701B
7023
7031
7035
7039
703C
7048
704C
704F
705E
706B
706C
706D
706F
7070
7075
7076
7078
707C
707E
707F
7080
7085
7086
7089
708A
708C
708E
7092
7094
7095
7096
7098
7099
709C
709D
";
   "709F
70A3
70AB
70AC
70AD
70AE
70AF
70B1
70B3
70B7
70B8
70B9
70BB
70BC
70BD
70C0
70C1
70C2
70C3
70C8
70CA
70D4
70D8
70D9
70DB
70DC
70DD
70DF
70E0
70E4
70E6
70E7
70E8
70E9
70EB
70EC
70ED
70EF
70F6
70F7
70F9
70FA
70FB
70FD
7106
7109
710A
710C
7110
7113
";
   "7115
7116
7117
7118
7119
711A
711C
711E
7126
712F
7130
7131
7136
7141
7143
7145
714A
714B
714C
714E
7153
715C
715E
715F
7164
7166
7167
7168
716E
7172
7173
7174
7178
717A
717D
7184
7187
718A
718F
7194
7198
7199
719B
719C
719F
71A0
71A5
71A8
71AC
71B3
";
   "71B5
71B9
71BB
71C3
71CA
71CB
71CE
71CF
71D4
71D5
71DA
71E0
71E5
71E7
71EE
71F9
7206
7207
7214
721A
721D
721F
7228
722A
722C
7230
7231
7235
7236
7237
7238
7239
723B
723D
723F
7241
7242
7247
7248
724C
724D
7252
7256
7259
725A
725B
725D
725F
7261
7262
";
   "7264
7265
7266
7267
7269
726E
726F
7272
7275
7279
727A
727B
727E
727F
7280
7281
7284
7287
728A
728B
728D
728F
7292
729F
72A8
72AC
72AD
72AF
72B0
72B4
72B6
72B7
72B8
72B9
72C1
72C2
72C3
72C4
72C8
72C9
72CD
72CE
72D0
72D2
72D7
72D9
72DD
72DE
72E0
72E1
";
   "72E8
72E9
72EC
72ED
72EE
72EF
72F0
72F1
72F2
72F3
72F4
72F7
72F8
72FA
72FB
72FC
7301
7303
7304
7307
730A
730E
7313
7315
7316
7317
731B
731C
731D
731E
7321
7322
7325
7329
732A
732B
732C
732E
732F
7330
7331
7334
7337
7338
7339
733A
733E
733F
734D
7350
";
   "7352
7357
7360
736C
736D
736F
7374
737E
7383
7384
7387
7389
738B
738E
7391
7392
7393
7395
7396
7398
7399
739A
739B
739E
739F
73A0
73A1
73A2
73A4
73A5
73A6
73A9
73AB
73AD
73AE
73AF
73B0
73B1
73B2
73B3
73B6
73B7
73B9
73BA
73BB
73BC
73BF
73C0
73C2
73C5
";
   "73C7
73C8
73C9
73CA
73CB
73CC
73CD
73CF
73D0
73D1
73D2
73D5
73D6
73D9
73DB
73DD
73DE
73E0
73E2
73E3
73E5
73E6
73E7
73E9
73EA
73EB
73ED
73F0
73F2
73F5
73F7
73F8
73F9
73FA
73FD
7400
7403
7404
7405
7406
7407
7408
7409
740A
740E
740F
7410
7414
741A
741B
";
   "741F
7421
7422
7424
7425
7426
7428
742A
742B
742C
742D
742E
742F
7430
7432
7433
7434
7435
7436
743C
7440
7441
7442
7443
7444
7445
7446
7451
7453
7454
7455
7456
7457
7459
745A
745B
745C
745D
745E
745F
7462
7467
7468
746C
746D
7470
7471
7473
7476
7477
";
   "747E
7480
7481
7483
7486
7487
7488
748B
748E
7490
7492
7498
749C
749E
749F
74A0
74A5
74A7
74A8
74A9
74AA
74AC
74AE
74B1
74B2
74BA
74C0
74D2
74D6
74D8
74DC
74DE
74E0
74E2
74E3
74E4
74E6
74EE
74EF
74F4
74F6
74F7
74FB
74FF
7504
750D
750F
7511
7513
7517
";
   "7518
7519
751A
751C
751F
7521
7525
7526
7528
7529
752A
752B
752C
752D
752F
7530
7531
7532
7533
7535
7537
7538
753A
753B
753E
7540
7545
7548
754B
754C
754E
754F
7554
7556
7559
755A
755B
755C
7564
7565
7566
756A
756C
756F
7572
7574
7578
7579
757F
7581
";
   "7583
7586
758B
758D
758F
7590
7591
7592
7594
7596
7597
7599
759A
759D
759F
75A0
75A1
75A2
75A3
75A4
75A5
75AB
75AC
75AD
75AE
75AF
75B0
75B1
75B2
75B3
75B4
75B5
75B8
75B9
75BC
75BD
75BE
75C2
75C3
75C4
75C5
75C7
75C8
75C9
75CA
75CD
75D2
75D3
75D4
75D5
";
   "75D6
75D8
75DB
75DE
75E2
75E3
75E4
75E6
75E7
75E8
75EA
75EB
75F0
75F1
75F4
75F9
75FC
75FF
7600
7601
7603
7605
7606
760A
760C
7610
7615
7617
7618
7619
761B
761F
7620
7622
7624
7625
7626
7629
762A
762B
762D
7630
7633
7634
7635
7638
763C
763E
763F
7640
";
   "7643
764C
764D
7654
7656
7657
765C
765E
7663
766B
766F
7678
767B
767D
767E
767F
7682
7684
7686
7687
7688
768B
768E
7691
7693
7695
7696
7699
769B
769E
76A4
76A6
76AD
76AE
76B1
76B2
76B4
76BF
76C2
76C5
76C6
76C8
76C9
76CA
76CD
76CE
76CF
76D0
76D1
76D2
";
   "76D4
76D6
76D7
76D8
76DB
76DF
76E5
76E6
76EE
76EF
76F1
76F2
76F4
76F7
76F8
76F9
76FC
76FE
7701
7704
7707
7708
7709
770A
770B
770D
7719
771A
771F
7720
7722
7726
7728
7729
772C
772D
772F
7735
7736
7737
7738
773A
773C
7740
7741
7743
7744
7747
774E
7750
";
   "7751
775A
775B
7761
7762
7763
7765
7766
7768
776B
776C
7779
777D
777E
777F
7780
7784
7785
778B
778C
778D
778E
7791
7792
779F
77A0
77A2
77A5
77A7
77A9
77AA
77AB
77AC
77AD
77B0
77B3
77B5
77BB
77BD
77BF
77CD
77D7
77DB
77DC
77DE
77E2
77E3
77E5
77E7
77E9
";
   "77EB
77EC
77ED
77EE
77F0
77F3
77F6
77F8
77FB
77FC
77FD
77FE
77FF
7800
7801
7802
7804
7806
7807
7809
780C
780D
7811
7812
7814
7816
7817
7818
781A
781C
781D
781F
7820
7823
7825
7826
7827
7829
782B
782C
782D
782E
7830
7834
7835
7837
7838
7839
783A
783B
";
   "783C
783E
7840
7841
7845
7847
784A
784C
784D
784E
7850
7852
7854
7855
7856
7857
7859
785A
785D
786A
786B
786C
786D
786E
7877
787C
787F
7883
7887
7888
7889
788C
788D
788E
788F
7891
7893
7897
7898
789A
789B
789C
789F
78A1
78A3
78A5
78A7
78A8
78B0
78B1
";
   "78B2
78B3
78B4
78B6
78B9
78BE
78C1
78C5
78C9
78CA
78CB
78CF
78D0
78D4
78D5
78D9
78DC
78E1
78E8
78EC
78F2
78F4
78F7
78F9
78FA
78FB
7901
7905
790C
7913
791E
7924
7933
7934
7935
793A
793B
793C
793E
7940
7941
7943
7946
7947
7948
7949
794A
794B
794E
794F
";
   "7950
7953
7955
7956
7957
795A
795B
795C
795D
795E
795F
7960
7962
7965
7967
7968
796D
796F
7972
7977
7978
797A
797C
797E
7980
7981
7984
7985
798A
798B
798F
7992
7994
7998
799A
799B
79A4
79A7
79B3
79B9
79BA
79BB
79BD
79BE
79C0
79C1
79C3
79C6
79C9
79CB
";
   "79CD
79D1
79D2
79D5
79D8
79DF
79E3
79E4
79E6
79E7
79E9
79EB
79EC
79ED
79EF
79F0
79F8
79FB
79FD
79FE
7A00
7A02
7A03
7A06
7A0B
7A0C
7A0D
7A0E
7A11
7A14
7A17
7A19
7A1A
7A1E
7A20
7A23
7A33
7A37
7A39
7A3B
7A3C
7A3D
7A3F
7A44
7A46
7A51
7A57
7A59
7A5C
7A5F
";
   "7A66
7A70
7A74
7A76
7A77
7A78
7A79
7A7A
7A7F
7A80
7A81
7A83
7A84
7A85
7A86
7A88
7A8A
7A8D
7A8E
7A91
7A92
7A95
7A96
7A97
7A98
7A9C
7A9D
7A9F
7AA0
7AA3
7AA5
7AA6
7AA8
7AAC
7AAD
7AB3
7AB8
7ABF
7ACB
7AD1
7AD6
7AD8
7AD9
7ADE
7ADF
7AE0
7AE3
7AE5
7AE6
7AEB
";
   "7AED
7AEF
7AF9
7AFA
7AFD
7AFF
7B03
7B04
7B06
7B08
7B0A
7B0B
7B0F
7B11
7B14
7B15
7B19
7B1B
7B1E
7B20
7B24
7B25
7B26
7B28
7B2A
7B2B
7B2C
7B2E
7B2F
7B31
7B33
7B38
7B3A
7B3C
7B3E
7B40
7B45
7B47
7B49
7B4B
7B4C
7B4F
7B50
7B51
7B52
7B54
7B56
7B58
7B5A
7B5B
";
   "7B5C
7B5D
7B60
7B62
7B64
7B65
7B66
7B6E
7B71
7B72
7B75
7B76
7B77
7B79
7B7B
7B7C
7B7E
7B80
7B85
7B8D
7B90
7B93
7B94
7B95
7B96
7B97
7B9C
7B9D
7BA1
7BA2
7BA6
7BA7
7BA8
7BA9
7BAA
7BAB
7BAC
7BAD
7BB1
7BB4
7BB8
7BC1
7BC6
7BC7
7BCC
7BD1
7BD3
7BD9
7BDA
7BDD
";
   "7BE1
7BE5
7BE6
7BEA
7BEE
7BEF
7BF1
7BF7
7BFC
7BFE
7C03
7C07
7C09
7C0B
7C0C
7C0F
7C15
7C16
7C1D
7C1F
7C20
7C26
7C27
7C2A
7C30
7C38
7C3F
7C40
7C41
7C4D
7C65
7C73
7C74
7C7B
7C7C
7C7D
7C89
7C91
7C92
7C95
7C97
7C98
7C9C
7C9D
7C9E
7C9F
7CA2
7CA4
7CA5
7CAA
";
   "7CAE
7CB1
7CB2
7CB3
7CB9
7CBC
7CBD
7CBE
7CBF
7CC1
7CC5
7CC7
7CC8
7CCA
7CCC
7CCD
7CD2
7CD5
7CD6
7CD7
7CD9
7CDC
7CDF
7CE0
7CE8
7CEF
7CF5
7CF8
7CFB
7D0A
7D20
7D22
7D27
7D2B
7D2F
7D5C
7D6E
7D77
7DA6
7DAE
7E20
7E22
7E3B
7E41
7E44
7E47
7E82
7E9B
7E9F
7EA0
";
   "7EA1
7EA2
7EA3
7EA4
7EA5
7EA6
7EA7
7EA8
7EA9
7EAA
7EAB
7EAC
7EAD
7EAE
7EAF
7EB0
7EB1
7EB2
7EB3
7EB4
7EB5
7EB6
7EB7
7EB8
7EB9
7EBA
7EBB
7EBC
7EBD
7EBE
7EBF
7EC0
7EC1
7EC2
7EC3
7EC4
7EC5
7EC6
7EC7
7EC8
7EC9
7ECA
7ECB
7ECC
7ECD
7ECE
7ECF
7ED0
7ED1
7ED2
";
   "7ED3
7ED4
7ED5
7ED6
7ED7
7ED8
7ED9
7EDA
7EDB
7EDC
7EDD
7EDE
7EDF
7EE0
7EE1
7EE2
7EE3
7EE4
7EE5
7EE6
7EE7
7EE8
7EE9
7EEA
7EEB
7EED
7EEE
7EEF
7EF0
7EF1
7EF2
7EF3
7EF4
7EF5
7EF6
7EF7
7EF8
7EF9
7EFA
7EFB
7EFC
7EFD
7EFE
7EFF
7F00
7F01
7F02
7F03
7F04
7F05
";
   "7F06
7F07
7F08
7F09
7F0A
7F0B
7F0C
7F0D
7F0E
7F0F
7F10
7F11
7F12
7F13
7F14
7F15
7F16
7F17
7F18
7F19
7F1A
7F1B
7F1C
7F1D
7F1E
7F1F
7F20
7F21
7F22
7F23
7F24
7F25
7F26
7F27
7F28
7F29
7F2A
7F2B
7F2C
7F2D
7F2E
7F2F
7F30
7F31
7F32
7F33
7F34
7F35
7F36
7F38
";
   "7F3A
7F42
7F44
7F45
7F4D
7F50
7F51
7F54
7F55
7F57
7F58
7F5A
7F5F
7F61
7F62
7F68
7F69
7F6A
7F6E
7F71
7F72
7F74
7F76
7F79
7F7D
7F7E
7F81
7F8A
7F8C
7F8E
7F91
7F93
7F94
7F95
7F96
7F9A
7F9D
7F9E
7F9F
7FA1
7FA4
7FA7
7FAF
7FB0
7FB1
7FB2
7FB8
7FB9
7FBC
7FBD
";
   "7FBF
7FC0
7FC1
7FC2
7FC3
7FC5
7FC8
7FCA
7FCC
7FCE
7FD4
7FD5
7FD8
7FD9
7FDA
7FDB
7FDF
7FE0
7FE1
7FE5
7FE6
7FE9
7FEE
7FEF
7FF0
7FF1
7FF3
7FF7
7FFB
7FFC
7FFE
8000
8001
8003
8004
8005
8006
8007
800B
800C
800D
800F
8010
8011
8012
8014
8015
8016
8017
8018
";
   "8019
801C
8020
8022
8024
8025
8026
8027
8028
8029
802A
8030
8031
8032
8033
8035
8036
8037
8038
803B
803D
803F
8042
8043
8046
804A
804B
804C
804D
8052
8054
8058
805A
8069
806A
8071
807F
8080
8083
8084
8086
8087
8089
808B
808C
8093
8096
8098
809A
809B
";
   "809C
809D
809F
80A0
80A1
80A2
80A4
80A5
80A9
80AA
80AB
80AD
80AE
80AF
80B1
80B2
80B4
80B7
80B8
80BA
80BC
80BD
80BE
80BF
80C0
80C1
80C2
80C3
80C4
80C6
80C8
80CC
80CD
80CE
80D6
80D7
80D9
80DA
80DB
80DC
80DD
80DE
80E0
80E1
80E3
80E4
80E5
80E7
80E8
80E9
";
   "80EA
80EB
80EC
80ED
80EF
80F0
80F1
80F2
80F3
80F4
80F6
80F8
80FA
80FC
80FD
8102
8106
8109
810A
810D
810E
810F
8110
8111
8112
8113
8114
8116
8118
811A
811E
811F
8129
812C
812F
8131
8132
8136
8138
813E
813F
8146
8148
814A
814B
814C
8150
8151
8152
8153
";
   "8154
8155
8158
8159
815A
8160
8165
8167
8168
8169
816D
816E
816F
8170
8171
8174
8179
817A
817B
817C
817D
817E
817F
8180
8182
8188
818A
818F
8191
8198
8199
819B
819C
819D
81A3
81A6
81A8
81AA
81B3
81BA
81BB
81C0
81C1
81C2
81C3
81C6
81CA
81CC
81D1
81DC
";
   "81E3
81E7
81EA
81EC
81ED
81F3
81F4
81FB
81FC
81FE
8200
8201
8202
8204
8205
8206
820C
820D
8210
8212
8214
821B
821C
821E
821F
8220
8221
8222
8223
8225
8228
822A
822B
822C
822D
822F
8230
8231
8232
8233
8234
8235
8236
8237
8238
8239
823B
823E
8244
8245
";
   "8247
8249
824B
824E
824F
8258
825A
825F
8268
826E
826F
8270
8272
8273
8274
8279
827A
827D
827E
827F
8282
8283
8284
8288
828A
828B
828D
828E
828F
8291
8292
8297
8298
8299
829C
829D
829F
82A0
82A1
82A3
82A4
82A5
82A6
82A8
82A9
82AA
82AB
82AC
82AD
82AE
";
   "82AF
82B0
82B1
82B3
82B4
82B7
82B8
82B9
82BC
82BD
82BE
82C1
82C4
82C7
82C8
82C9
82CA
82CB
82CC
82CD
82CE
82CF
82D1
82D2
82D3
82D4
82D5
82D7
82D8
82DB
82DC
82DE
82DF
82E0
82E1
82E3
82E4
82E5
82E6
82E7
82EB
82EF
82F1
82F4
82F7
82F9
82FB
82FE
8300
8301
";
   "8302
8303
8304
8305
8306
8307
8308
8309
830B
830C
830E
830F
8311
8313
8314
8315
8317
831A
831B
831C
831D
8327
8328
832B
832C
832D
832F
8331
8333
8334
8335
8336
8338
8339
833A
833C
833D
8340
8341
8343
8344
8346
8347
8349
834F
8350
8351
8352
8353
8354
";
   "8356
8359
835A
835B
835C
835E
835F
8360
8361
8363
8364
8365
8366
8367
8368
8369
836A
836B
836C
836D
836E
836F
8377
8378
837B
837C
837D
8385
8386
8389
838E
8392
8393
8398
8399
839B
839C
839D
839E
83A0
83A8
83A9
83AA
83AB
83B0
83B1
83B2
83B3
83B4
83B6
";
   "83B7
83B8
83B9
83BA
83BC
83BD
83BF
83C0
83C1
83C2
83C5
83C7
83C9
83CA
83CC
83CD
83CF
83D4
83D6
83D8
83DC
83DD
83DF
83E0
83E1
83E5
83E9
83EA
83F0
83F1
83F2
83F8
83F9
83FC
83FD
8401
8403
8404
8406
840B
840C
840D
840E
840F
8411
8418
841A
841C
841D
8423
";
   "8424
8425
8426
8427
8428
8429
8431
8433
8438
8439
843C
843D
8446
844E
8451
8453
8456
8457
8459
845A
845B
845C
8461
8463
8469
846B
846C
846D
8470
8471
8473
8474
8475
8476
8478
847A
8482
8484
8487
8488
8489
848B
848C
848E
8490
8497
8499
849C
849F
84A1
";
   "84A8
84AF
84B1
84B2
84B4
84B8
84B9
84BA
84BB
84BD
84BF
84C1
84C2
84C4
84C7
84C9
84CA
84CD
84CF
84D0
84D1
84D3
84D6
84DD
84DF
84E0
84E2
84E3
84E5
84E6
84EC
84F0
84FC
84FF
8500
8503
8508
850A
850C
8511
8513
8517
851A
851F
8521
852B
852C
8537
8538
8539
";
   "853A
853B
853C
853D
8543
8548
8549
854A
8556
8557
8559
855E
8564
8568
8570
8572
8574
8579
857A
857B
857E
8581
8584
8585
8587
858F
859B
859C
85A2
85A4
85A8
85AA
85AE
85AF
85B0
85B3
85B7
85B8
85B9
85BF
85C1
85C9
85CF
85D0
85D3
85D5
85DC
85DF
85E0
85E4
";
   "85E6
85E8
85E9
85FB
85FF
8605
8611
8616
8618
8627
8629
8638
863C
864D
864E
864F
8650
8651
8652
8653
8654
865A
865E
8662
8664
866B
866C
866E
8671
8677
8678
8679
867A
867B
867C
867D
867E
867F
8680
8681
8682
8684
8686
868A
868B
868C
868D
8693
8695
869C
";
   "869D
86A3
86A4
86A7
86A8
86A9
86AA
86AC
86AF
86B0
86B1
86B2
86B4
86B5
86B6
86BA
86C0
86C3
86C4
86C6
86C7
86C9
86CA
86CB
86CE
86CF
86D0
86D1
86D4
86D8
86D9
86DB
86DE
86DF
86E4
86E9
86ED
86EE
86F0
86F1
86F2
86F3
86F4
86F8
86F9
86FE
8700
8702
8703
8707
";
   "8708
8709
870A
870D
870E
8710
8712
8713
8715
8717
8718
871A
871C
871E
8721
8722
8723
8725
8729
872E
8731
8734
8737
873B
873E
873F
8747
8748
8749
874C
874E
8753
8757
8758
8759
8760
8763
8764
8765
876E
8770
8772
8774
8776
877B
877C
877D
877E
8782
8783
";
   "8785
8788
878B
878D
8793
8797
879F
87A0
87A3
87A8
87AB
87AC
87AD
87AF
87B1
87B3
87B5
87BA
87BD
87C0
87C6
87CA
87CB
87CF
87D1
87D2
87D3
87DB
87E0
87E5
87EA
87EB
87EE
87F9
87FE
8803
880A
880B
8813
8815
8816
881B
8821
8822
8832
8839
883C
8840
8843
8844
";
   "8845
884C
884D
884E
8852
8854
8857
8859
8860
8861
8862
8863
8864
8865
8868
8869
886B
886C
886E
8870
8872
8877
887D
887E
887F
8881
8882
8884
8885
8886
8888
888B
888D
8892
8896
8897
889C
88A2
88A4
88AA
88AB
88AD
88AF
88B1
88B7
88BC
88C1
88C2
88C5
88C6
";
   "88C8
88C9
88CE
88D2
88D4
88D5
88D8
88D9
88DB
88DF
88E2
88E3
88E4
88E5
88E8
88F0
88F1
88F3
88F4
88F8
88F9
88FC
88FE
8902
890A
8910
8912
8913
8915
8919
891A
891B
891F
8921
8925
892A
892B
892F
8930
8934
8936
8941
8944
8955
895A
895C
895E
895F
8966
896B
";
   "897B
897F
8981
8983
8986
89C1
89C2
89C3
89C4
89C5
89C6
89C7
89C8
89C9
89CA
89CB
89CC
89CE
89CF
89D0
89D1
89D2
89D6
89DA
89DC
89DE
89DF
89E3
89E5
89E6
89EB
89ED
89EF
89F1
89F3
89FF
8A00
8A04
8A07
8A1A
8A3E
8A48
8A5F
8A79
8A89
8A8A
8A93
8B07
8B26
8B66
";
   "8B6C
8BA0
8BA1
8BA2
8BA3
8BA4
8BA5
8BA6
8BA7
8BA8
8BA9
8BAA
8BAB
8BAD
8BAE
8BAF
8BB0
8BB1
8BB2
8BB3
8BB4
8BB5
8BB6
8BB7
8BB8
8BB9
8BBA
8BBB
8BBC
8BBD
8BBE
8BBF
8BC0
8BC1
8BC2
8BC3
8BC4
8BC5
8BC6
8BC7
8BC8
8BC9
8BCA
8BCB
8BCC
8BCD
8BCE
8BCF
8BD0
8BD1
";
   "8BD2
8BD3
8BD4
8BD5
8BD6
8BD7
8BD8
8BD9
8BDA
8BDB
8BDC
8BDD
8BDE
8BDF
8BE0
8BE1
8BE2
8BE3
8BE4
8BE5
8BE6
8BE7
8BE8
8BE9
8BEB
8BEC
8BED
8BEE
8BEF
8BF0
8BF1
8BF2
8BF3
8BF4
8BF5
8BF6
8BF7
8BF8
8BF9
8BFA
8BFB
8BFC
8BFD
8BFE
8BFF
8C00
8C01
8C02
8C03
8C04
";
   "8C05
8C06
8C07
8C08
8C0A
8C0B
8C0C
8C0D
8C0E
8C0F
8C10
8C11
8C12
8C13
8C14
8C15
8C16
8C17
8C18
8C19
8C1A
8C1B
8C1C
8C1D
8C1E
8C1F
8C20
8C21
8C22
8C23
8C24
8C25
8C26
8C27
8C28
8C29
8C2A
8C2B
8C2C
8C2D
8C2E
8C2F
8C30
8C31
8C32
8C33
8C34
8C35
8C36
8C37
";
   "8C3C
8C3F
8C41
8C46
8C47
8C49
8C4C
8C55
8C5A
8C61
8C62
8C68
8C6A
8C6B
8C6E
8C73
8C78
8C79
8C7A
8C82
8C85
8C86
8C89
8C8A
8C8C
8C94
8C98
8D1D
8D1E
8D1F
8D21
8D22
8D23
8D24
8D25
8D26
8D27
8D28
8D29
8D2A
8D2B
8D2C
8D2D
8D2E
8D2F
8D30
8D31
8D32
8D33
8D34
";
   "8D35
8D36
8D37
8D38
8D39
8D3A
8D3B
8D3C
8D3D
8D3E
8D3F
8D40
8D41
8D42
8D43
8D44
8D45
8D46
8D47
8D48
8D49
8D4A
8D4B
8D4C
8D4D
8D4E
8D4F
8D50
8D51
8D52
8D53
8D54
8D55
8D56
8D57
8D58
8D59
8D5A
8D5B
8D5C
8D5D
8D5E
8D5F
8D60
8D61
8D62
8D63
8D64
8D66
8D67
";
   "8D6A
8D6B
8D6D
8D70
8D73
8D74
8D75
8D76
8D77
8D81
8D84
8D85
8D8A
8D8B
8D91
8D94
8D9F
8DA3
8DAF
8DB1
8DB3
8DB4
8DB5
8DB8
8DBA
8DBC
8DBE
8DBF
8DC2
8DC3
8DC4
8DC6
8DCB
8DCC
8DCE
8DCF
8DD0
8DD1
8DD6
8DD7
8DDA
8DDB
8DDD
8DDE
8DDF
8DE3
8DE4
8DE8
8DEA
8DEB
";
   "8DEC
8DEF
8DF1
8DF3
8DF5
8DF6
8DF7
8DF8
8DF9
8DFA
8DFB
8DFD
8E05
8E09
8E0A
8E0C
8E0F
8E12
8E14
8E1D
8E1E
8E1F
8E22
8E23
8E26
8E29
8E2A
8E2C
8E2E
8E2F
8E31
8E35
8E36
8E39
8E3A
8E3D
8E40
8E41
8E42
8E44
8E45
8E47
8E48
8E49
8E4A
8E4B
8E50
8E51
8E52
8E53
";
   "8E59
8E5A
8E5C
8E62
8E66
8E69
8E6C
8E6D
8E6F
8E70
8E72
8E74
8E76
8E7C
8E7D
8E7E
8E7F
8E81
8E85
8E87
8E8F
8E90
8E94
8E9C
8E9E
8EAB
8EAC
8EAF
8EB2
8EBA
8ECE
8F66
8F67
8F68
8F69
8F6A
8F6B
8F6C
8F6D
8F6E
8F6F
8F70
8F71
8F72
8F73
8F74
8F75
8F76
8F77
8F78
";
   "8F79
8F7A
8F7B
8F7C
8F7D
8F7E
8F7F
8F80
8F81
8F82
8F83
8F84
8F85
8F86
8F87
8F88
8F89
8F8A
8F8B
8F8C
8F8D
8F8E
8F8F
8F90
8F91
8F92
8F93
8F94
8F95
8F96
8F97
8F98
8F99
8F9A
8F9B
8F9C
8F9E
8F9F
8FA3
8FA8
8FA9
8FAB
8FB0
8FB1
8FB6
8FB9
8FBD
8FBE
8FBF
8FC1
";
   "8FC2
8FC4
8FC5
8FC7
8FC8
8FCE
8FD0
8FD1
8FD3
8FD4
8FD5
8FD8
8FD9
8FDB
8FDC
8FDD
8FDE
8FDF
8FE2
8FE4
8FE5
8FE6
8FE8
8FE9
8FEA
8FEB
8FED
8FEE
8FF0
8FF3
8FF7
8FF8
8FF9
8FFA
8FFD
9000
9001
9002
9003
9004
9005
9006
9009
900A
900B
900D
900F
9010
9011
9012
";
   "9014
9016
9017
901A
901B
901D
901E
901F
9020
9021
9022
9026
902D
902E
902F
9034
9035
9036
9038
903B
903C
903E
9041
9042
9044
9046
9047
904D
904F
9050
9051
9052
9053
9057
9058
905B
9062
9063
9065
9068
906D
906E
9074
9075
9079
907D
907F
9080
9082
9083
";
   "9088
908B
9091
9093
9095
9097
9098
9099
909B
909D
90A0
90A1
90A2
90A3
90A6
90A8
90AA
90AC
90AE
90AF
90B0
90B1
90B2
90B3
90B4
90B5
90B6
90B8
90B9
90BA
90BB
90BD
90BE
90BF
90C1
90C3
90C4
90C5
90C7
90C8
90CA
90CE
90CF
90D0
90D1
90D3
90D7
90DA
90DB
90DC
";
   "90DD
90E1
90E2
90E4
90E6
90E7
90E8
90EA
90EB
90ED
90EF
90F4
90F8
90FD
90FE
90FF
9100
9102
9103
9104
9105
910C
9111
9117
9118
9119
911A
911C
911E
9120
9122
9123
912B
912F
9131
9139
9142
9143
9145
9146
9149
914A
914B
914C
914D
914E
914F
9150
9152
9157
";
   "915A
915D
915E
9161
9162
9163
9164
9165
9166
9169
916A
916C
916E
916F
9170
9171
9172
9174
9175
9176
9177
9178
9179
917A
917D
917E
917F
9185
9187
9189
918B
918C
918D
9190
9191
9192
919A
919B
91A2
91A3
91A8
91AA
91AD
91AE
91AF
91B4
91B5
91BA
91BE
91C7
";
   "91C9
91CA
91CC
91CD
91CE
91CF
91D0
91D1
91DC
9274
928E
92AE
92C6
92C8
933E
936A
938F
93CA
93D6
943E
946B
9485
9486
9487
9488
9489
948A
948B
948C
948D
948E
948F
9490
9492
9493
9494
9495
9496
9497
9498
9499
949A
949B
949C
949D
949E
949F
94A0
94A1
94A2
";
   "94A3
94A4
94A5
94A6
94A7
94A8
94A9
94AA
94AB
94AC
94AD
94AE
94AF
94B0
94B1
94B2
94B3
94B4
94B5
94B6
94B7
94B8
94B9
94BA
94BB
94BC
94BD
94BE
94BF
94C0
94C1
94C2
94C3
94C4
94C5
94C6
94C8
94C9
94CA
94CB
94CC
94CD
94CE
94CF
94D0
94D1
94D2
94D5
94D6
94D7
";
   "94D8
94D9
94DA
94DB
94DC
94DD
94DE
94DF
94E0
94E1
94E2
94E3
94E4
94E5
94E7
94E8
94E9
94EA
94EB
94EC
94ED
94EE
94EF
94F0
94F1
94F2
94F3
94F4
94F5
94F6
94F7
94F8
94F9
94FA
94FB
94FC
94FD
94FE
94FF
9500
9501
9502
9503
9504
9505
9506
9507
9508
9509
950A
";
   "950B
950C
950D
950E
950F
9510
9511
9512
9513
9514
9515
9516
9517
9518
9519
951A
951B
951C
951D
951E
951F
9521
9522
9523
9524
9525
9526
9527
9528
9529
952A
952B
952C
952D
952E
952F
9530
9531
9532
9533
9534
9535
9536
9537
9538
9539
953A
953B
953C
953D
";
   "953E
953F
9540
9541
9542
9543
9544
9545
9546
9547
9548
9549
954A
954B
954C
954D
954E
954F
9550
9551
9552
9553
9554
9555
9556
9557
9558
9559
955A
955B
955C
955D
955E
955F
9560
9561
9562
9563
9564
9565
9566
9567
9568
9569
956A
956B
956C
956D
956E
956F
";
   "9570
9571
9572
9573
9574
9575
9576
957F
95E8
95E9
95EA
95EB
95ED
95EE
95EF
95F0
95F1
95F2
95F3
95F4
95F5
95F6
95F7
95F8
95F9
95FA
95FB
95FC
95FD
95FE
95FF
9600
9601
9602
9603
9604
9605
9606
9607
9608
9609
960A
960B
960C
960D
960E
960F
9610
9611
9612
";
   "9614
9615
9616
9617
9618
9619
961A
961C
961D
961F
9621
9622
962A
962E
9631
9632
9633
9634
9635
9636
963B
963C
963D
963F
9640
9642
9644
9645
9646
9647
9648
9649
964B
964C
964D
964E
9650
9651
9654
9655
965B
965E
965F
9661
9662
9664
9667
9668
9669
966A
";
   "966C
9672
9674
9675
9676
9677
9683
9685
9686
9688
968B
968D
968F
9690
9694
9697
9698
9699
969C
96A7
96A9
96B0
96B3
96B6
96B9
96BA
96BC
96BD
96BE
96C0
96C1
96C4
96C5
96C6
96C7
96C9
96CA
96CC
96CD
96CE
96CF
96D2
96D5
96E0
96E8
96E9
96EA
96EF
96F1
96F3
";
   "96F6
96F7
96F9
96FE
9700
9701
9704
9705
9706
9707
9708
9709
970D
970E
970F
9713
9716
971C
971E
9728
972A
972D
9730
9732
9738
9739
973E
9752
9753
9756
9759
975B
975E
9760
9761
9762
9765
9769
976C
9770
9773
9774
9776
9778
977A
977C
977D
977F
9781
9785
";
   "978B
978D
9791
9792
9794
9798
97A0
97A1
97A3
97A7
97A8
97AB
97AC
97AD
97AE
97AF
97B2
97B3
97B4
97C2
97E6
97E7
97E8
97E9
97EA
97EB
97EC
97ED
97F3
97F5
97F6
9875
9876
9877
9878
9879
987A
987B
987C
987D
987E
987F
9880
9881
9882
9883
9884
9885
9886
9887
";
   "9888
9889
988A
988B
988C
988D
988E
988F
9890
9891
9893
9894
9896
9897
9898
9899
989A
989B
989C
989D
989E
989F
98A0
98A1
98A2
98A4
98A5
98A6
98A7
98CE
98CF
98D0
98D1
98D2
98D3
98D4
98D5
98D7
98D8
98D9
98DA
98DE
98DF
98E7
98E8
990D
9910
992E
9954
9955
";
   "9963
9964
9965
9967
9968
9969
996A
996B
996C
996D
996E
996F
9970
9971
9972
9973
9974
9975
9976
9977
9978
9979
997A
997B
997C
997D
997E
997F
9980
9981
9983
9984
9985
9986
9987
9988
9989
998A
998B
998C
998D
998F
9990
9991
9992
9993
9994
9995
9996
9997
";
   "9998
9999
999D
999E
99A5
99A7
99A8
9A6C
9A6D
9A6E
9A6F
9A70
9A71
9A72
9A73
9A74
9A75
9A76
9A77
9A78
9A79
9A7A
9A7B
9A7C
9A7D
9A7E
9A7F
9A80
9A81
9A82
9A83
9A84
9A85
9A86
9A87
9A88
9A89
9A8A
9A8B
9A8C
9A8D
9A8E
9A8F
9A90
9A91
9A92
9A93
9A95
9A96
9A97
";
   "9A98
9A99
9A9A
9A9B
9A9C
9A9D
9A9E
9A9F
9AA0
9AA1
9AA2
9AA3
9AA4
9AA5
9AA6
9AA7
9AA8
9AB0
9AB1
9AB6
9AB7
9AB8
9ABA
9ABC
9AC0
9AC1
9AC2
9AC3
9AC5
9ACB
9ACC
9ACE
9AD1
9AD3
9AD8
9ADF
9AE1
9AE2
9AE6
9AEB
9AED
9AEF
9AF9
9AFB
9AFD
9B03
9B08
9B0F
9B12
9B13
";
   "9B18
9B1F
9B23
9B2F
9B32
9B36
9B37
9B3B
9B3C
9B41
9B42
9B43
9B44
9B45
9B46
9B47
9B48
9B49
9B4B
9B4D
9B4F
9B51
9B54
9C7C
9C7D
9C7E
9C7F
9C80
9C81
9C82
9C83
9C85
9C86
9C87
9C88
9C89
9C8A
9C8B
9C8C
9C8D
9C8E
9C8F
9C90
9C91
9C92
9C94
9C95
9C96
9C97
9C98
";
   "9C99
9C9A
9C9B
9C9C
9C9D
9C9E
9C9F
9CA0
9CA1
9CA2
9CA3
9CA4
9CA5
9CA6
9CA7
9CA8
9CA9
9CAA
9CAB
9CAC
9CAD
9CAE
9CAF
9CB0
9CB1
9CB2
9CB3
9CB4
9CB5
9CB6
9CB7
9CB8
9CB9
9CBA
9CBB
9CBC
9CBD
9CBE
9CBF
9CC0
9CC1
9CC2
9CC3
9CC4
9CC5
9CC6
9CC7
9CC8
9CC9
9CCA
";
   "9CCB
9CCC
9CCD
9CCE
9CCF
9CD0
9CD1
9CD2
9CD3
9CD4
9CD5
9CD6
9CD7
9CD8
9CD9
9CDA
9CDB
9CDC
9CDD
9CDE
9CDF
9CE0
9CE1
9CE2
9CE3
9CE4
9E1F
9E20
9E21
9E22
9E23
9E24
9E25
9E26
9E27
9E28
9E29
9E2A
9E2B
9E2C
9E2D
9E2E
9E2F
9E30
9E31
9E32
9E33
9E35
9E36
9E37
";
   "9E38
9E39
9E3A
9E3B
9E3C
9E3D
9E3E
9E3F
9E40
9E41
9E42
9E43
9E44
9E45
9E46
9E47
9E48
9E49
9E4A
9E4B
9E4C
9E4D
9E4E
9E4F
9E50
9E51
9E52
9E54
9E55
9E56
9E57
9E58
9E59
9E5A
9E5B
9E5C
9E5D
9E5E
9E5F
9E60
9E61
9E62
9E63
9E64
9E66
9E67
9E68
9E69
9E6A
9E6B
";
   "9E6C
9E6D
9E6E
9E6F
9E70
9E71
9E72
9E73
9E74
9E7E
9E7F
9E80
9E82
9E87
9E88
9E8B
9E91
9E92
9E93
9E96
9E9D
9E9F
9EA6
9EB4
9EB8
9EB9
9EBB
9EBD
9EBE
9EC4
9EC7
9EC9
9ECD
9ECE
9ECF
9ED1
9ED4
9ED8
9EDB
9EDC
9EDD
9EDF
9EE0
9EE1
9EE2
9EE5
9EE7
9EE9
9EEA
9EEF
";
   "9EF9
9EFB
9EFC
9EFE
9F0B
9F0D
9F0E
9F10
9F12
9F13
9F17
9F19
9F20
9F22
9F29
9F2B
9F2C
9F2F
9F31
9F37
9F39
9F3B
9F3D
9F3E
9F41
9F44
9F47
9F49
9F50
9F51
9F7F
9F80
9F81
9F82
9F83
9F84
9F85
9F86
9F87
9F88
9F89
9F8A
9F8B
9F8C
9F99
9F9A
9F9B
9F9F
9FA0
9FA2
";
   "9FCD
9FCE
9FCF
20164
20676
20CD0
2139A
21413
235CB
23C97
23C98
23E23
249DB
24A7D
24AC9
25532
25562
255A8
25ED7
26221
2648D
26676
2677C
26B5C
26C21
27FF9
28408
28678
28695
287E0
28B49
28C47
28C4F
28C51
28C54
28E99
29F7E
29F83
29F8C
2A7DD
2A8FB
2A917
2AA30
2AA36
2AA58
2AFA2
2B127
2B128
2B137
2B138
";
   "2B1ED
2B300
2B363
2B36F
2B372
2B37D
2B404
2B410
2B413
2B461
2B4E7
2B4EF
2B4F6
2B4F9
2B50D
2B50E
2B536
2B5AE
2B5AF
2B5B3
2B5E7
2B5F4
2B61C
2B61D
2B626
2B627
2B628
2B62A
2B62C
2B695
2B696
2B6AD
2B6ED
2B7A9
2B7C5
2B7E6
2B7F9
2B7FC
2B806
2B80A
2B81C
2B8B8
2BAC7
2BB5F
2BB62
2BB7C
2BB83
2BC1B
2BD77
2BD87
";
   "2BDF7
2BE29
2C029
2C02A
2C0A9
2C0CA
2C1D5
2C1D9
2C1F9
2C27C
2C288
2C2A4
2C317
2C35B
2C361
2C364
2C488
2C494
2C497
2C542
2C613
2C618
2C621
2C629
2C62B
2C62C
2C62D
2C62F
2C642
2C64A
2C64B
2C72C
2C72F
2C79F
2C7C1
2C7FD
2C8D9
2C8DE
2C8E1
2C8F3
2C907
2C90A
2C91D
2CA02
2CA0E
2CA7D
2CAA9
2CB29
2CB2D
2CB2E
";
   "2CB31
2CB38
2CB39
2CB3B
2CB3F
2CB41
2CB4A
2CB4E
2CB5A
2CB5B
2CB64
2CB69
2CB6C
2CB6F
2CB73
2CB76
2CB78
2CB7C
2CBB1
2CBBF
2CBC0
2CBCE
2CC56
2CC5F
2CCF5
2CCF6
2CCFD
2CCFF
2CD02
2CD03
2CD0A
2CD8B
2CD8D
2CD8F
2CD90
2CD9F
2CDA0
2CDA8
2CDAD
2CDAE
2CDD5
2CE18
2CE1A
2CE23
2CE26
2CE2A
2CE7C
2CE88
2CE93
# CJK Symbols and Punctuation
";
   "3000
3001
3002
3003
3004
3005
3006
3007
3008
3009
300A
300B
300C
300D
300E
300F
3010
3011
3012
3013
3014
3015
3016
3017
3018
3019
301A
301B
301C
301D
301E
301F
# Halfwidth and Fullwidth Forms
FF01
FF02
FF03
FF04
FF05
FF06
FF07
FF08
FF09
FF0A
FF0B
FF0C
FF0D
FF0E
FF0F
FF10
FF11
";
   "FF12
FF13
FF14
FF15
FF16
FF17
FF18
FF19
FF1A
FF1B
FF1C
FF1D
FF1E
FF1F
FF20
FF21
FF22
FF23
FF24
FF25
FF26
FF27
FF28
FF29
FF2A
FF2B
FF2C
FF2D
FF2E
FF2F
FF30
FF31
FF32
FF33
FF34
FF35
FF36
FF37
FF38
FF39
FF3A
FF3B
FF3C
FF3D
FF3E
FF3F
FF40
FF41
FF42
FF43
";
   "FF44
FF45
FF46
FF47
FF48
FF49
FF4A
FF4B
FF4C
FF4D
FF4E
FF4F
FF50
FF51
FF52
FF53
FF54
FF55
FF56
FF57
FF58
FF59
FF5A
FF5B
FF5C
FF5D
FF5E
FF5F
FF60
"].
