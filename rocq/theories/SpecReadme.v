(** * Specification: lines of text, as the README describes them *)
From Coq Require Import ZArith.
From Verif Require Import Prim Str Geom FontDefs Blit SpecPaint SpecPictures SpecSetting.

(** README: "Glyphs have different heights: 24px for Latin Small, 30px for Latin Regular
    and Bold, and 32px for ideograms including emoji." *)
Definition glyph_height (gs : glyphset) : N :=
  match gs with Emoji | Hanzi => 32 | Bold | Regular => 30 | Small => 24 end.

(** A line of text: no newlines.  Its height is that of the tallest glyph. *)
Definition one_line (items : list item) : Prop := Forall (fun it => it <> Newline) items.

Fixpoint line_height_of (items : list item) : N :=
  match items with
  | Cluster gs _ _ :: rest => N.max (glyph_height gs) (line_height_of rest)
  | _ => 0
  end.

(** Columns a line needs: each picture has one blank column on its left and two on its right *)
Fixpoint line_width (items : list item) : N :=
  match items with
  | Cluster gs i _ :: rest => 1 + width (part_used gs i) + 2 + line_width rest
  | _ => 0
  end.

(** q is on the same line as p or on a lower one, with a blank row between *)
Definition in_lines (p q : spot) : Prop :=
  s_top q = s_top p \/ s_top p + glyph_height (s_set p) < s_top q.

(** q is right of p, with three blank columns between, or on a lower line *)
Definition side_by_side (p q : spot) : Prop :=
  s_top q = s_top p -> s_left p + width (part_used (s_set p) (s_picture p)) + 3 <= s_left q.
