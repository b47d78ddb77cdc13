(** * Specification: a caller that clears a region and paints in it (src/blit.rs: clear_region, paint_str) *)
From Verif Require Import Prim Geom Str FontDefs Blit Spec.

Definition redraw (m : cfg) (F : fontset) (clip : cliprect) (c : cursor) (st : glyphstyle) (s : str) (fb : frbuf) : res (frbuf * cursor) :=
  fb1 <- clear_region m fb clip ;;
  paint_str m F fb1 clip c st s.

(** Columns right of the clip that clear_region clears too *)
Definition beside (clip : cliprect) (x y : N) : bool :=
  (px (cmax clip) mod 32 =? 0) && in_rect (px (cmax clip)) (py (cmin clip)) (px (cmax clip) + 32) (py (cmax clip)) x y.
