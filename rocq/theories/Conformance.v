(** * The repository's own tests, run on the model

    Each check is an assertion of a test in /repo (src/lib.rs, src/m3hash.rs, src/api/v1.rs), with
    the expected value written there.  They check the model, not the program: the hashes
    are those the authors recorded from the real code.  The configuration is that of cargo test on
    a 64-bit machine: overflow checks on.  [Check (eq_refl r <: l = r)]
    makes the build fail when l does not evaluate to r, and leaves no constant. *)
From Coq Require Import ZArith.
From Verif Require Import Prim PrimFacts Str M3Hash Geom FontDefs Fonts Blit Demo Png.

(** The hash of what an action leaves in the buffer *)
Definition hash_of (r : res frbuf) (seed : N) : res N := fb <- r ;; Ret (m3_frame_buffer fb seed).

(** A fresh buffer, cleared, with s painted on the full screen from the top left *)
Definition cleared_and_painted (m : cfg) (st : glyphstyle) (s : str) : res frbuf :=
  let clip := full_screen in
  fb <- clear_region m new_fr_buf clip ;;
  '(fb, _) <- paint_str m blitstr_fonts fb clip (from_top_left_of clip) st s ;;
  Ret fb.

(** The same, one character at a time with one cursor *)
Definition painted_by_char (m : cfg) (st : glyphstyle) (s : str) : res frbuf :=
  let clip := full_screen in
  fb <- clear_region m new_fr_buf clip ;;
  '(fb, _) <- fold_left (fun r ch => '(fb, c) <- r ;; paint_str m blitstr_fonts fb clip c st [ch]) s
               (Ret (fb, from_top_left_of clip)) ;;
  Ret fb.

Definition pangram : str :=
  [84; 104; 101; 32; 113; 117; 105; 99; 107; 32; 98; 114; 111; 119; 110; 32; 102; 111; 120; 32;
   106; 117; 109; 112; 115; 32; 111; 118; 101; 114; 32; 116; 104; 101; 32; 108; 97; 122; 121; 32;
   100; 111; 103; 46].

Definition cargo_test : cfg := Cfg true 64.

(** src/lib.rs:32-37 *)
Check (eq_refl (Ret 0x3A25F08C) <: hash_of (clear_region cargo_test new_fr_buf full_screen) 0 = Ret 0x3A25F08C).

(** src/lib.rs:39-48 *)
Check (eq_refl (Ret 0x59AA26A1) <: hash_of (sample_text cargo_test blitstr_fonts new_fr_buf) 0 = Ret 0x59AA26A1).
Check (eq_refl (Ret 0xAE37C33B) <: hash_of (sample_text cargo_test blitstr_fonts new_fr_buf) 1 = Ret 0xAE37C33B).

(** src/lib.rs:50-85 *)
Check (eq_refl (Ret 0x5DE65BFC) <: hash_of (cleared_and_painted cargo_test StSmall [97; 98; 99]) 0 = Ret 0x5DE65BFC).
Check (eq_refl (Ret 0x529828DB) <: hash_of (cleared_and_painted cargo_test StRegular [97; 98; 99]) 0 = Ret 0x529828DB).
Check (eq_refl (Ret 0x411C2E62) <: hash_of (cleared_and_painted cargo_test StBold [97; 98; 99]) 0 = Ret 0x411C2E62).

(** src/lib.rs:87-109 *)
Check (eq_refl (repeat (Ret 0x3A4FFDB5) 3) <: map (fun st => hash_of (cleared_and_painted cargo_test st [0x1F638]) 0) [StSmall; StRegular; StBold] = repeat (Ret 0x3A4FFDB5) 3).

(** src/lib.rs:111-117 *)
Check (eq_refl (Ret 0x9bd28a96) <: hash_of (goose_poem cargo_test blitstr_fonts new_fr_buf) 0 = Ret 0x9bd28a96).

(** src/lib.rs:119-150 *)
Check (eq_refl (Ret 0xE5240DD1) <: hash_of (cleared_and_painted cargo_test StRegular pangram) 0 = Ret 0xE5240DD1).
Check (eq_refl (Ret 0xE5240DD1) <: hash_of (painted_by_char cargo_test StRegular pangram) 0 = Ret 0xE5240DD1).

(** src/m3hash.rs:78-115: "test", an emoji and "test", an emoji of two codepoints *)
Check (eq_refl ((0x31099644, 1)) <: grapheme_cluster [116; 101; 115; 116] 0 1 = (0x31099644, 1)).
Check (eq_refl ((0xD667FA27, 1)) <: grapheme_cluster [116; 101; 115; 116] 1 1 = (0xD667FA27, 1)).
Check (eq_refl ((0x86E5DD9A, 4)) <: grapheme_cluster [0x1F638; 116; 101; 115; 116] 0 1 = (0x86E5DD9A, 4)).
Check (eq_refl ((0x7C5E300, 7)) <: grapheme_cluster [0x1F4FA; 0xFE0F] 0 2 = (0x7C5E300, 7)).

(** src/m3hash.rs:117-151 *)
Check (eq_refl (0x9B9CB39A) <: m3_frame_buffer [0] 0 = 0x9B9CB39A).
Check (eq_refl (0xC8C1D2C1) <: m3_frame_buffer [0] 1 = 0xC8C1D2C1).
Check (eq_refl (0x7DEFDA4F) <: m3_frame_buffer [0x500] 0 = 0x7DEFDA4F).
Check (eq_refl (0x4E61577A) <: m3_frame_buffer (repeat 0x500 2000) 0 = 0x4E61577A).
Check (eq_refl (0x59F987C6) <: m3_frame_buffer (repeat 0xffffffff 2000) 0 = 0x59F987C6).

(** src/api/v1.rs:25-33 *)
Check (eq_refl (Ret 0x529828DB) <: hash_of (cleared_and_painted cargo_test StRegular [97; 98; 99]) 0 = Ret 0x529828DB).

(** src/api/v1.rs:35-54: constructors *)
Check (eq_refl (ClipRect (Pt 1 2) (Pt 3 4)) <: cliprect_new 1 2 3 4 = ClipRect (Pt 1 2) (Pt 3 4)).
Check (fun E : full_screen = padded_screen => eq_ind full_screen (fun r => if px (cmin r) =? 0 then True else False) I padded_screen E : False).
Check (eq_refl (Cursor (Pt 1 2) 0) <: cursor_new 1 2 0 = Cursor (Pt 1 2) 0).
Check (eq_refl 0 <: line_height (from_top_left_of (cliprect_new 1 2 3 4)) = 0).

(** src/api/v1.rs:57-66: the three demos on one buffer *)
Check (eq_refl (Ret 0x59AA26A1) <: hash_of (sample_text cargo_test blitstr_fonts new_fr_buf) 0 = Ret 0x59AA26A1).
Check (eq_refl (Ret 0x7AC16AC8) <: hash_of (demo_main cargo_test blitstr_fonts) 0 = Ret 0x7AC16AC8).
Check (eq_refl (Ret 0x9bd28a96) <: hash_of (fb <- demo_main cargo_test blitstr_fonts ;; goose_poem cargo_test blitstr_fonts fb) 0 = Ret 0x9bd28a96).

(** src/api/v1.rs:68-75 *)
Check (eq_refl FRAME_BUF_SIZE <: LINES * WORDS_PER_LINE = FRAME_BUF_SIZE).
Check (eq_refl true <: (0 <? LINES) && (0 <? WIDTH) && (0 <? N.of_nat (List.length new_fr_buf)) = true).

(** src/api/v1.rs:77-88 *)
Check (eq_refl [StSmall; StRegular; StBold] <: map (fun st => style_of_usize (usize_of_style st)) [StSmall; StRegular; StBold] = [StSmall; StRegular; StBold]).
Check (eq_refl [24; 30; 30] <: map (glyph_to_height_hint blitstr_fonts) [StSmall; StRegular; StBold] = [24; 30; 30]).

(** Not from the repository: check values of the formats of Png.v, crc32 of "123456789" and
    adler32 of "Wikipedia" *)
Check (eq_refl 0xCBF43926 <: crc32 [49; 50; 51; 52; 53; 54; 55; 56; 57] = 0xCBF43926).
Check (eq_refl 0x11E60398 <: adler 1 0 [87; 105; 107; 105; 112; 101; 100; 105; 97] = 0x11E60398).
