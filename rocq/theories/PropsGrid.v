(** * C77: glyphs of one width stand on a grid *)
From Coq Require Import ZArith.
From Verif Require Import PrimFacts Geom Str FontDefs Blit Spec SpecPaint SpecText TextProofs SpecRoom SpecGrid Fonts FontsOk RoomProofs GridProofs.

(** C77: a text without newlines whose glyphs are all w wide and whose fonts are all h high, from the left margin of a
    clip with room for it, fills cells of (w + 3) by (h + 1) in reading order; the cursor is on the row of the last
    glyph: the bound of C76 is reached *)
Theorem C77_grid : forall m F fb clip c st s l w h,
  cfg_ok m -> fontset_ok F -> is_frbuf fb -> paintable clip -> 36 <= clip_width clip -> cursor_fits m F c s ->
  cx c <= px (cmin clip) -> shows F st s l -> breaks l = 0 -> Forall (exactly F w h) (glyphs l) ->
  f_max_height (F Small) <= h -> line_height c <= h ->
  room w h clip c 0 (N.of_nat (length (glyphs l))) ->
  exists ps fb' c', paint_str m F fb clip c st s = Ret (fb', c') /\
    map (fun p => (p_set p, p_off p)) ps = glyphs l /\ Forall (all_inside F clip) ps /\ on_grid F w h clip (cy c) ps /\
    cy c' = cy c + (h + 1) * ((N.of_nat (length (glyphs l)) - 1) / per_line w clip) /\
    forall x y, x < STORED_WIDTH -> y < LINES -> pixel fb' x y = xorb (pixel fb x y) (stamped F ps x y).
Proof. exact paint_grid. Qed.
Print Assumptions C77_grid.

(** C77: Chinese text is in tiles of 32 by 32: pixel (x, y) of the tile of the i-th character is inverted where the
    character's bitmap is set, and no pixel outside of the tiles is *)
Theorem C77_tiles : forall m fb clip c st s,
  cfg_ok m -> is_frbuf fb -> paintable clip -> cursor_fits m blitstr_fonts c s -> cx c <= px (cmin clip) -> line_height c <= 32 ->
  Forall cjk s -> room 32 32 clip c 0 (N.of_nat (length s)) ->
  exists fb' c', paint_str m blitstr_fonts fb clip c st s = Ret (fb', c') /\
    (forall i ch, nth_error s i = Some ch -> exists off, glyph_for (blitstr_fonts Hanzi) [ch] = Some (off, 1%nat) /\
      forall x y, x < 32 -> y < 32 ->
        pixel fb' (tile_x clip i + x) (tile_y clip c i + y) =
        xorb (pixel fb (tile_x clip i + x) (tile_y clip c i + y)) (glyph_pixel (blitstr_fonts Hanzi) off x y)) /\
    (forall x y, x < STORED_WIDTH -> y < LINES ->
      (forall i, (i < length s)%nat -> in_rect (tile_x clip i) (tile_y clip c i) (tile_x clip i + 32) (tile_y clip c i + 32) x y = false) ->
      pixel fb' x y = pixel fb x y).
Proof. exact paint_tiles. Qed.
Print Assumptions C77_tiles.

(** C77: on the screen, up to 144 characters in 16 rows of nine *)
Theorem C77_screen : forall m fb st s,
  cfg_ok m -> is_frbuf fb -> Forall cjk s -> (length s <= 144)%nat ->
  exists fb' c', paint_str m blitstr_fonts fb screen corner st s = Ret (fb', c') /\
    (forall i ch, nth_error s i = Some ch -> exists off, glyph_for (blitstr_fonts Hanzi) [ch] = Some (off, 1%nat) /\
      forall x y, x < 32 -> y < 32 ->
        let x' := 35 * (N.of_nat i mod 9) + 1 + x in
        let y' := 33 * (N.of_nat i / 9) + y in
        pixel fb' x' y' = xorb (pixel fb x' y') (glyph_pixel (blitstr_fonts Hanzi) off x y)).
Proof. exact screen_tiles. Qed.
Print Assumptions C77_screen.

(** One, two, three; the eleventh tile; the stroke of U+4E00 *)
Example C77_case : Forall cjk [0x4E00; 0x4E8C; 0x4E09] /\ tile_x screen 10 = 36 /\ tile_y screen corner 10 = 33 /\
  exists off, glyph_for (blitstr_fonts Hanzi) [0x4E00] = Some (off, 1%nat) /\
    glyph_pixel (blitstr_fonts Hanzi) off 16 14 = true /\ glyph_pixel (blitstr_fonts Hanzi) off 16 3 = false.
Proof.
  split.
  { apply Forall_cons; [split; [lia|exists one_off; exact one_glyph]|].
    apply Forall_cons; [split; [lia|exists 5313; vm_compute; reflexivity]|].
    apply Forall_cons; [split; [lia|exists 2838; vm_compute; reflexivity]|]. apply Forall_nil. }
  split; [vm_compute; reflexivity|]. split; [vm_compute; reflexivity|].
  exists one_off. split; [exact one_glyph|]. split; vm_compute; reflexivity.
Qed.
