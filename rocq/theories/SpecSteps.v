(** * Specification: how far painting gets

    [layout_tries] with the first glyph that overruns the frame buffer as the last one: the
    glyphs painted, the cursor, and whether there was such a glyph.  The cursor is then where
    that glyph was going to be, not yet moved on. *)
From Verif Require Import Prim Str Geom FontDefs Blit Spec SpecPaint.

Fixpoint layout_stop (n : nat) (F : fontset) (clip : cliprect) (st : glyphstyle)
  (c : cursor) (s : str) : list placed * cursor * bool :=
  match n with
  | O => ([], c, false)
  | S n' =>
      match s with
      | [] => ([], c, false)
      | ch :: t =>
          if ch =? 10 then layout_stop n' F clip st (break_line F clip c) t
          else
            let '(gs, off, rest, known) := choose F st s in
            let c1 := seek F clip c (gl_w (F gs) off) in
            let p := placed_at F gs off c1 in
            if py (cmax clip) <? p_y p then layout_stop n' F clip st c1 (if known then s else rest)
            else if overruns F clip p then ([p], c1, true)
            else
              let '(ps, c', stop) := layout_stop n' F clip st (after F gs off c1) rest in
              (p :: ps, c', stop)
      end
  end.
