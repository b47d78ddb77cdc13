(** * Specification: glyphs on a grid *)
From Verif Require Import Prim Geom Str FontDefs Blit Spec SpecPaint SpecRoom Fonts.

Definition exactly (F : fontset) (w h : N) (g : glyphset * N) : Prop :=
  gl_w (F (fst g)) (snd g) = w /\ f_max_height (F (fst g)) = h.

(** Cells of [w + 3] by [h + 1], [per_line] in a row, filled in reading order; a glyph is one column from the left
    of its cell and as far from the top as its font says *)
Definition on_grid (F : fontset) (w h : N) (clip : cliprect) (y : N) (ps : list placed) : Prop :=
  forall i p, nth_error ps i = Some p ->
    let column := N.of_nat i mod per_line w clip in
    let row := N.of_nat i / per_line w clip in
    p_x p = px (cmin clip) + (w + 3) * column + 1 /\
    p_y p = y + (h + 1) * row + gl_y (F (p_set p)) (p_off p).

(** A unified ideograph that the hanzi font has *)
Definition cjk (c : N) : Prop := 0x4E00 <= c <= 0x9FFF /\ exists off, glyph_for (blitstr_fonts Hanzi) [c] = Some (off, 1%nat).

(** Where the picture of the [i]-th ideograph of a text begins *)
Definition tile_x (clip : cliprect) (i : nat) : N := px (cmin clip) + 35 * (N.of_nat i mod per_line 32 clip) + 1.
Definition tile_y (clip : cliprect) (c : cursor) (i : nat) : N := cy c + 33 * (N.of_nat i / per_line 32 clip).
