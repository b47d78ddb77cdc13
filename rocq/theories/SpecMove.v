(** * Specification: the same, elsewhere *)
From Verif Require Import Prim Geom.

Definition move_pt (dx dy : N) (p : pt) : pt := Pt (px p + dx) (py p + dy).
Definition move_clip (dx dy : N) (clip : cliprect) : cliprect := ClipRect (move_pt dx dy (cmin clip)) (move_pt dx dy (cmax clip)).
Definition move_cursor (dx dy : N) (c : cursor) : cursor := Cursor (move_pt dx dy (cpt c)) (line_height c).
