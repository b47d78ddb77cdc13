(** * C76: a text that has room is shown to its end *)
From Coq Require Import ZArith.
From Verif Require Import PrimFacts Geom Str FontDefs Blit Spec SpecPaint SpecText TextProofs SpecRoom Fonts FontsOk RoomProofs.

(** C76: when no glyph of a text is wider than w columns and no line higher than h, and the lines that this takes at most
    are in the clip, then every glyph of the text is drawn, in order and with all its pixels, and nothing else is *)
Theorem C76_shown_in_full : forall m F fb clip c st s l w h,
  cfg_ok m -> fontset_ok F -> is_frbuf fb -> paintable clip -> 36 <= clip_width clip -> cursor_fits m F c s ->
  shows F st s l -> Forall (no_larger F w h) (glyphs l) -> f_max_height (F Small) <= h -> line_height c <= h ->
  room w h clip c (breaks l) (N.of_nat (length (glyphs l))) ->
  exists ps fb' c', paint_str m F fb clip c st s = Ret (fb', c') /\ is_frbuf fb' /\
    map (fun p => (p_set p, p_off p)) ps = glyphs l /\ Forall (all_inside F clip) ps /\
    cy c' <= cy c + (h + 1) * new_lines w clip c (breaks l) (N.of_nat (length (glyphs l))) /\
    forall x y, x < STORED_WIDTH -> y < LINES -> pixel fb' x y = xorb (pixel fb x y) (stamped F ps x y).
Proof. exact paint_room. Qed.
Print Assumptions C76_shown_in_full.

(** C76: for any text that does not end in an unknown character, from the number of its characters alone *)
Theorem C76_by_characters : forall m F fb clip c st s,
  cfg_ok m -> fontset_ok F -> is_frbuf fb -> paintable clip -> cursor_fits m F c s ->
  segmented F st s -> line_height c <= tallest F -> room 32 (tallest F) clip c (newlines s) (others s) ->
  exists l ps fb' c', shows F st s l /\ paint_str m F fb clip c st s = Ret (fb', c') /\ is_frbuf fb' /\
    map (fun p => (p_set p, p_off p)) ps = glyphs l /\ Forall (all_inside F clip) ps /\
    cy c' <= cy c + (tallest F + 1) * new_lines 32 clip c (newlines s) (others s) /\
    forall x y, x < STORED_WIDTH -> y < LINES -> pixel fb' x y = xorb (pixel fb x y) (stamped F ps x y).
Proof. exact paint_room_chars. Qed.
Print Assumptions C76_by_characters.

(** C76: Latin text in the fonts of this crate; [widest] and [tall] are 18 and 24 for Small, 20 and 30 otherwise *)
Theorem C76_latin : forall m fb clip c st s l,
  cfg_ok m -> is_frbuf fb -> paintable clip -> 36 <= clip_width clip -> cursor_fits m blitstr_fonts c s ->
  shows blitstr_fonts st s l -> Forall (fun g => fst g = latin_set st) (glyphs l) -> line_height c <= tall st ->
  room (widest st) (tall st) clip c (newlines s) (others s) ->
  exists ps fb' c', paint_str m blitstr_fonts fb clip c st s = Ret (fb', c') /\ is_frbuf fb' /\
    map (fun p => (p_set p, p_off p)) ps = glyphs l /\ Forall (all_inside blitstr_fonts clip) ps /\
    forall x y, x < STORED_WIDTH -> y < LINES -> pixel fb' x y = xorb (pixel fb x y) (stamped blitstr_fonts ps x y).
Proof. exact paint_room_latin. Qed.
Print Assumptions C76_latin.

(** C76: then the condition of C19 and C21 holds *)
Theorem C76_fits : forall F clip c st s n, fontset_ok F -> segmented F st s -> line_height c <= tallest F ->
  room 32 (tallest F) clip c (newlines s) (others s) -> (length s <= n)%nat -> fits n F clip st c s = true.
Proof. exact fits_room_chars. Qed.
Print Assumptions C76_fits.

(** C76: the screen holds any 144 characters *)
Theorem C76_screen : forall m fb st s,
  cfg_ok m -> is_frbuf fb -> segmented blitstr_fonts st s -> ~ In 10 s -> (length s <= 144)%nat ->
  exists l ps fb' c', shows blitstr_fonts st s l /\ paint_str m blitstr_fonts fb screen corner st s = Ret (fb', c') /\
    map (fun p => (p_set p, p_off p)) ps = glyphs l /\ Forall (all_inside blitstr_fonts screen) ps /\
    forall x y, x < STORED_WIDTH -> y < LINES -> pixel fb' x y = xorb (pixel fb x y) (stamped blitstr_fonts ps x y).
Proof. exact screen_holds. Qed.
Print Assumptions C76_screen.

(** C76: and not any 145: of 145 times U+4E00 one is not to be seen *)
Theorem C76_screen_refuted : forall m fb, cfg_ok m -> is_frbuf fb ->
  let s n := repeat 0x4E00 n in
  (forall n, segmented blitstr_fonts StRegular (s n)) /\
  exists fb' c' fb2 c2, paint_str m blitstr_fonts fb screen corner StRegular (s 144%nat) = Ret (fb', c') /\
    paint_str m blitstr_fonts fb screen corner StRegular (s 145%nat) = Ret (fb2, c2) /\
    forall x y, x < STORED_WIDTH -> y < LINES -> pixel fb2 x y = pixel fb' x y.
Proof. exact screen_full. Qed.
Print Assumptions C76_screen_refuted.

(** Two lines of narrow and wide glyphs in a clip of 100 columns, from the middle of the first *)
Definition words : str := [65; 32; 119; 111; 114; 100; 10; 0x4E00; 0x1F638].
Definition box : cliprect := cliprect_new 20 40 120 240.
Example C76_case : segmented blitstr_fonts StBold words /\ newlines words = 1 /\ others words = 8 /\
  room 32 (tallest blitstr_fonts) box (Cursor (Pt 50 41) 30) (newlines words) (others words) /\
  new_lines 32 box (Cursor (Pt 50 41) 30) 1 8 = 5 /\
  snd (layout 20 blitstr_fonts box StBold (Cursor (Pt 50 41) 30) words) = Cursor (Pt 89 103) 32.
Proof.
  split.
  { unfold words. repeat first [apply seg_nil | apply seg_newline
      | eapply seg_known; [discriminate|vm_compute; reflexivity|]]. }
  rewrite tallest_32. vm_compute. repeat split; discriminate.
Qed.
Example C76_case_latin : room 20 30 screen corner 0 238 /\ room 18 24 screen corner 0 315 /\ ~ room 20 30 screen corner 0 239.
Proof. vm_compute. repeat split; try discriminate. intros (_ & _ & H). apply H. reflexivity. Qed.
