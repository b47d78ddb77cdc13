(** * Specification: clips that end higher up *)
From Verif Require Import Prim Geom Str FontDefs Blit Spec SpecPaint.

Definition ending_at (b : N) (clip : cliprect) : cliprect := ClipRect (cmin clip) (Pt (px (cmax clip)) b).

(** A text of newlines and clusters that the fonts have *)
Inductive known_text (F : fontset) (st : glyphstyle) : str -> Prop :=
| kn_nothing : known_text F st []
| kn_newline t : known_text F st t -> known_text F st (10 :: t)
| kn_cluster ch t gs off rest :
    ch <> 10 -> choose F st (ch :: t) = (gs, off, rest, true) -> known_text F st rest -> known_text F st (ch :: t).

(** The glyphs before the first whose top is below row [b] *)
Fixpoint before_row (b : N) (ps : list placed) : list placed :=
  match ps with
  | [] => []
  | p :: t => if b <? p_y p then [] else p :: before_row b t
  end.
