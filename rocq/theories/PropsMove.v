(** * C78: moving clip and cursor moves the picture *)
From Verif Require Import PrimFacts Geom Str FontDefs Blit Spec SpecPaint SpecMove Fonts FontsOk MoveProofs.

(** C78: painting at two places, in any frame buffers and builds, inverts the same pixels relative to the places and moves
    the cursor by the same distance *)
Theorem C78_elsewhere : forall m1 m2 F fb1 fb2 clip c st s x1 y1 x2 y2,
  cfg_ok m1 -> cfg_ok m2 -> fontset_ok F -> is_frbuf fb1 -> is_frbuf fb2 -> 36 <= clip_width clip ->
  paintable (move_clip x1 y1 clip) -> paintable (move_clip x2 y2 clip) ->
  cursor_fits m1 F (move_cursor x1 y1 c) s -> cursor_fits m2 F (move_cursor x2 y2 c) s ->
  exists fb1' fb2' c',
    paint_str m1 F fb1 (move_clip x1 y1 clip) (move_cursor x1 y1 c) st s = Ret (fb1', move_cursor x1 y1 c') /\
    paint_str m2 F fb2 (move_clip x2 y2 clip) (move_cursor x2 y2 c) st s = Ret (fb2', move_cursor x2 y2 c') /\
    forall x y, x + x1 < STORED_WIDTH -> y + y1 < LINES -> x + x2 < STORED_WIDTH -> y + y2 < LINES ->
      xorb (pixel fb1' (x + x1) (y + y1)) (pixel fb1 (x + x1) (y + y1)) =
      xorb (pixel fb2' (x + x2) (y + y2)) (pixel fb2 (x + x2) (y + y2)).
Proof. exact paint_elsewhere. Qed.
Print Assumptions C78_elsewhere.

(** The left leg of an A in the middle of the screen and in its bottom right corner *)
Example C78_case :
  let clip := cliprect_new 0 0 60 50 in let c := Cursor (Pt 5 2) 0 in
  let shown dx dy := match paint_str (Cfg true 32) blitstr_fonts (new_fr_buf) (move_clip dx dy clip) (move_cursor dx dy c) StRegular [65] with
    | Ret (fb, c') => Some (xorb (pixel fb (6 + dx) (20 + dy)) (pixel new_fr_buf (6 + dx) (20 + dy)), c') | Panic => None end in
  paintable (move_clip 100 200 clip) /\ paintable (move_clip 276 486 clip) /\
  shown 100 200 = Some (true, move_cursor 100 200 (Cursor (Pt 22 2) 30)) /\
  shown 276 486 = Some (true, move_cursor 276 486 (Cursor (Pt 22 2) 30)).
Proof. repeat split; vm_compute; reflexivity || discriminate. Qed.
