(** * Specification: clips that end further left *)
From Verif Require Import Prim Geom Str FontDefs Blit Spec SpecPaint.

Definition reaching (r : N) (clip : cliprect) : cliprect := ClipRect (cmin clip) (Pt r (py (cmax clip))).

(** The glyph and the two columns of padding after it are left of column r, with a column to spare *)
Definition cell_left_of (F : fontset) (r : N) (p : placed) : Prop := p_x p + gl_w (F (p_set p)) (p_off p) + 2 < r.

(** The glyphs before the first of which this is false *)
Fixpoint before_column (F : fontset) (r : N) (ps : list placed) : list placed :=
  match ps with
  | [] => []
  | p :: t => if p_x p + gl_w (F (p_set p)) (p_off p) + 2 <? r then p :: before_column F r t else []
  end.
