(** * Specification: how much room a text needs *)
From Verif Require Import Prim Geom Str FontDefs Blit Spec SpecPaint.

(** What is to be shown of a string: line breaks (None) and glyphs *)
Inductive shows (F : fontset) (st : glyphstyle) : str -> list (option (glyphset * N)) -> Prop :=
| sh_nothing : shows F st [] []
| sh_break t l : shows F st t l -> shows F st (10 :: t) (None :: l)
| sh_glyph ch t gs off rest known l :
    ch <> 10 -> choose F st (ch :: t) = (gs, off, rest, known) -> known = true \/ t <> [] ->
    shows F st rest l -> shows F st (ch :: t) (Some (gs, off) :: l).
Definition glyphs (l : list (option (glyphset * N))) : list (glyphset * N) :=
  flat_map (fun i => match i with Some g => [g] | None => [] end) l.
Definition breaks (l : list (option (glyphset * N))) : N :=
  N.of_nat (length (filter (fun i => match i with Some _ => false | None => true end) l)).

(** Newlines and other characters of a string *)
Definition newlines (s : str) : N := N.of_nat (length (filter (N.eqb 10) s)).
Definition others (s : str) : N := N.of_nat (length (filter (fun ch => negb (ch =? 10)) s)).

(** Glyphs up to [w] wide, with their three columns of padding: how many a line holds at least, and how many
    the cursor has used up of its line at most *)
Definition per_line (w : N) (clip : cliprect) : N := (clip_width clip - 1) / (w + 3).
Definition used_up (w : N) (clip : cliprect) (c : cursor) : N :=
  N.min (per_line w clip) ((cx c - px (cmin clip) + (w + 2)) / (w + 3)).
(** Line breaks, for [b] newlines and [g] glyphs, at most *)
Definition new_lines (w : N) (clip : cliprect) (c : cursor) (b g : N) : N :=
  b + (used_up w clip c + g - 1) / per_line w clip.

(** The clip has room for that, with lines up to [h] high *)
Definition room (w h : N) (clip : cliprect) (c : cursor) (b g : N) : Prop :=
  w + 3 < clip_width clip /\ py (cmin clip) <= cy c /\
  cy c + (h + 1) * new_lines w clip c b g + h <= py (cmax clip).

Definition no_larger (F : fontset) (w h : N) (g : glyphset * N) : Prop :=
  gl_w (F (fst g)) (snd g) <= w /\ f_max_height (F (fst g)) <= h.

(** The glyph is in the clip with all its pixels *)
Definition all_inside (F : fontset) (clip : cliprect) (p : placed) : Prop :=
  px (cmin clip) < p_x p /\ p_x p + gl_w (F (p_set p)) (p_off p) < px (cmax clip) /\
  py (cmin clip) <= p_y p /\ p_y p + gl_h (F (p_set p)) (p_off p) <= py (cmax clip).
(** It inverts (x, y); an odd number of them do *)
Definition stamp (F : fontset) (p : placed) (x y : N) : bool :=
  let f := F (p_set p) in
  in_rect (p_x p) (p_y p) (p_x p + gl_w f (p_off p)) (p_y p + gl_h f (p_off p)) x y
  && glyph_pixel f (p_off p) (x - p_x p) (y - p_y p).
Fixpoint stamped (F : fontset) (ps : list placed) (x y : N) : bool :=
  match ps with [] => false | p :: t => xorb (stamp F p x y) (stamped F t x y) end.
