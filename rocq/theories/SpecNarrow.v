(** * Specification: painting into clips of any width

    [layout] describes clips of 36 columns and more, where every glyph fits on a line of
    its own.  In a narrower clip a glyph may be wider than the clip.  It is painted at the
    left margin all the same, and two more things happen, which these definitions add. *)
From Verif Require Import Prim Str Geom FontDefs Blit Spec SpecPaint.

(** A glyph that starts below the clip is not drawn; what follows in the string is not
    looked at, but as long as there are tries left the glyph is tried again, each time
    on a new line if it does not fit. *)
Fixpoint layout_tries (n : nat) (F : fontset) (clip : cliprect) (st : glyphstyle)
  (c : cursor) (s : str) : list placed * cursor :=
  match n with
  | O => ([], c)
  | S n' =>
      match s with
      | [] => ([], c)
      | ch :: t =>
          if ch =? 10 then layout_tries n' F clip st (break_line F clip c) t
          else
            let '(gs, off, rest, known) := choose F st s in
            let c1 := seek F clip c (gl_w (F gs) off) in
            let p := placed_at F gs off c1 in
            if py (cmax clip) <? p_y p then layout_tries n' F clip st c1 (if known then s else rest)
            else
              let '(ps, c') := layout_tries n' F clip st (after F gs off c1) rest in
              (p :: ps, c')
      end
  end.

(** Ink past the end of a row of 352 stored pixels is at the start of the next row. *)
Definition ink_over (F : fontset) (clip : cliprect) (p : placed) (x y : N) : bool :=
  ink F clip p x y || ((0 <? y) && ink F clip p (x + STORED_WIDTH) (y - 1)).

Fixpoint inked_over (F : fontset) (clip : cliprect) (ps : list placed) (x y : N) : bool :=
  match ps with
  | [] => false
  | p :: t => xorb (ink_over F clip p x y) (inked_over F clip t x y)
  end.
