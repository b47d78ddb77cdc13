(** * Model of src/demo.rs (string literals as lists of codepoints, printed by
    tools/gen_demo.py). *)
From Verif Require Import Prim Str Geom FontDefs Blit.

(** src/demo.rs:9 *)
Definition str_note : str :=
    [72; 101; 108; 108; 111; 44; 32; 119; 111; 114; 108; 100; 33; 32; 0xE4; 97;
     0x308; 32; 0x1F004; 0x1F0CF; 0x1F170; 0x1F170; 0xFE0F; 0xA].

(** src/demo.rs:10 *)
Definition str_sas1 : str :=
    [0xA; 32; 32; 32; 0x1F34E; 32; 32; 32; 32; 32; 32; 32; 0x1F3B8; 32; 32; 32;
     32; 32; 32; 32; 0x1F576; 32; 32; 32; 32; 32; 32; 32; 32; 0x1F34E; 0xA].

(** src/demo.rs:11 *)
Definition str_sas2 : str :=
    [32; 97; 112; 112; 108; 101; 32; 32; 103; 117; 105; 116; 97; 114; 32; 32;
     103; 108; 97; 115; 115; 101; 115; 32; 32; 97; 112; 112; 108; 101; 0xA; 0xA].

(** src/demo.rs:12 *)
Definition str_sas3 : str :=
    [32; 32; 32; 32; 32; 32; 32; 32; 32; 32; 32; 0x1F638; 32; 32; 32; 32;
     32; 0x1F3A9; 32; 32; 32; 32; 0x1F511; 0xA].

(** src/demo.rs:13 *)
Definition str_sas4 : str :=
    [32; 32; 32; 32; 32; 32; 32; 32; 32; 32; 32; 99; 97; 116; 32; 32;
     32; 32; 104; 97; 116; 32; 32; 32; 32; 107; 101; 121; 0xA; 0xA].

(** src/demo.rs:14-17 *)
Definition str_wrap : str :=
    [84; 104; 101; 32; 113; 117; 105; 99; 107; 32; 98; 114; 111; 119; 110; 32;
     102; 111; 120; 32; 106; 117; 109; 112; 115; 32; 111; 118; 101; 114; 32; 116;
     104; 101; 32; 108; 97; 122; 121; 32; 100; 111; 103; 46; 32; 90; 119; 0xF6;
     108; 102; 32; 66; 111; 120; 107; 0xE4; 109; 112; 102; 101; 114; 32; 106; 97;
     103; 101; 110; 32; 86; 105; 107; 116; 111; 114; 32; 113; 117; 101; 114; 32;
     0xFC; 98; 101; 114; 32; 100; 101; 110; 32; 103; 114; 111; 0xDF; 101; 110; 32;
     83; 121; 108; 116; 101; 114; 32; 68; 101; 105; 99; 104; 46; 0xA].

(** src/demo.rs:59 *)
Definition str_hello_world : str :=
    [72; 101; 108; 108; 111; 44; 32; 119; 111; 114; 108; 100; 33; 0xA].

(** src/demo.rs:60 *)
Definition str_hello_cat : str :=
    [72; 101; 108; 108; 111; 44; 32; 0x1F638; 33; 0xA].

(** src/demo.rs:71-76 *)
Definition str_poem : str :=
    [0x9E45; 0x3001; 0x9E45; 0x3001; 0x9E45; 0xFF0C; 0xA; 0x66F2; 0x9879; 0x5411; 0x5929; 0x6B4C; 0x3002; 0xA; 0x767D; 0x6BDB;
     0x6D6E; 0x7EFF; 0x6C34; 0xFF0C; 0xA; 0x7EA2; 0x638C; 0x62E8; 0x6E05; 0x6CE2; 0xA].

(** src/demo.rs:8-44: sample_text *)
Definition sample_text (m : cfg) (F : fontset) (fb : frbuf) : res frbuf :=
  fb <- clear_region m fb full_screen ;;
  let clip := padded_screen in
  let c := from_top_left_of clip in
  '(fb, c) <- paint_str m F fb clip c StBold str_note ;;
  '(fb, c) <- paint_str m F fb clip c StRegular str_note ;;
  '(fb, c) <- paint_str m F fb clip c StSmall str_note ;;
  '(fb, c) <- paint_str m F fb clip c StRegular str_sas1 ;;
  '(fb, c) <- paint_str m F fb clip c StRegular str_sas2 ;;
  '(fb, c) <- paint_str m F fb clip c StRegular str_sas3 ;;
  '(fb, c) <- paint_str m F fb clip c StRegular str_sas4 ;;
  '(fb, c) <- paint_str m F fb clip c StRegular str_wrap ;;
  (* line 32 *)
  let c := cursor_new (cx c) (cy c) (line_height c) in
  (* lines 35-38 *)
  min_y <- uadd m (cy c) 12 ;;
  max_y <- usub m (py (cmax clip)) 8 ;;
  min_x <- uadd m (px (cmin clip)) 30 ;;
  max_x <- usub m (px (cmax clip)) 40 ;;
  (* line 41 *)
  let clip := cliprect_new max_x min_y min_x max_y in
  (* line 43 *)
  '(fb, c) <- paint_str m F fb clip c StSmall str_wrap ;;
  Ret fb.

(** src/demo.rs:47-61: short_greeting *)
Definition short_greeting (m : cfg) (F : fontset) (fb : frbuf) : res frbuf :=
  fb <- clear_region m fb full_screen ;;
  let clip := padded_screen in
  let c := from_top_left_of clip in
  '(fb, c) <- paint_str m F fb clip c StRegular str_hello_world ;;
  '(fb, c) <- paint_str m F fb clip c StRegular str_hello_cat ;;
  Ret fb.

(** src/demo.rs:64-78: goose_poem *)
Definition goose_poem (m : cfg) (F : fontset) (fb : frbuf) : res frbuf :=
  fb <- clear_region m fb full_screen ;;
  let clip := padded_screen in
  let c := from_top_left_of clip in
  '(fb, c) <- paint_str m F fb clip c StRegular str_poem ;;
  Ret fb.

(** src/main.rs:11-20: main, the command line demo.  The result is the frame buffer it
    leaves. *)
Definition demo_main (m : cfg) (F : fontset) : res frbuf :=
  let fb := new_fr_buf in
  fb <- sample_text m F fb ;;
  fb <- short_greeting m F fb ;;
  Ret fb.
