(** * Specification of how paint_str reads a string *)
From Verif Require Import Prim Geom Str M3Hash FontDefs Blit Spec SpecPaint.

(** The string is a sequence of newlines, known clusters and unknown characters
    whose last element is not an unknown character. *)
Inductive segmented (F : fontset) (st : glyphstyle) : str -> Prop :=
| seg_nil : segmented F st []
| seg_newline t : segmented F st t -> segmented F st (10 :: t)
| seg_known ch t gs off rest :
    ch <> 10 -> choose F st (ch :: t) = (gs, off, rest, true) -> segmented F st rest ->
    segmented F st (ch :: t)
| seg_unknown ch d t gs off :
    ch <> 10 -> choose F st (ch :: d :: t) = (gs, off, d :: t, false) -> segmented F st (d :: t) ->
    segmented F st (ch :: d :: t).

(** s1 is such a sequence, and putting s2 behind it changes none of its elements *)
Inductive splits (F : fontset) (st : glyphstyle) : str -> str -> Prop :=
| sp_nil s2 : splits F st [] s2
| sp_newline t s2 : splits F st t s2 -> splits F st (10 :: t) s2
| sp_glyph ch t s2 gs off rest known :
    ch <> 10 ->
    choose F st (ch :: t) = (gs, off, rest, known) ->
    choose F st (ch :: t ++ s2) = (gs, off, rest ++ s2, known) ->
    known = true \/ t <> [] ->
    splits F st rest s2 -> splits F st (ch :: t) s2.

(** No glyph, known or not, starts below the clip *)
Fixpoint fits (n : nat) (F : fontset) (clip : cliprect) (st : glyphstyle) (c : cursor) (s : str) : bool :=
  match n with
  | O => true
  | S n' =>
      match s with
      | [] => true
      | ch :: t =>
          if ch =? 10 then fits n' F clip st (break_line F clip c) t
          else
            let '(gs, off, rest, known) := choose F st s in
            let c1 := seek F clip c (gl_w (F gs) off) in
            (p_y (placed_at F gs off c1) <=? py (cmax clip))
            && fits n' F clip st (after F gs off c1) rest
      end
  end.

(** Every cluster of the string is a newline, is in the emoji font, or is in the
    hanzi font and in no Latin font *)
Inductive no_latin (F : fontset) : str -> Prop :=
| nl_nil : no_latin F []
| nl_newline t : no_latin F t -> no_latin F (10 :: t)
| nl_emoji ch t off n :
    ch <> 10 -> glyph_for (F Emoji) (ch :: t) = Some (off, n) ->
    no_latin F (skipn n (ch :: t)) -> no_latin F (ch :: t)
| nl_hanzi ch t off n :
    ch <> 10 -> glyph_for (F Emoji) (ch :: t) = None ->
    (forall st, glyph_for (F (latin_set st)) (ch :: t) = None) ->
    glyph_for (F Hanzi) (ch :: t) = Some (off, n) ->
    no_latin F (skipn n (ch :: t)) -> no_latin F (ch :: t).

(** s' is s with every unknown character (not at the end) replaced by U+FFFD *)
Inductive shown (F : fontset) (st : glyphstyle) : str -> str -> Prop :=
| sh_nil : shown F st [] []
| sh_newline t t' : shown F st t t' -> shown F st (10 :: t) (10 :: t')
| sh_known ch a rest rest' gs off :
    ch <> 10 ->
    choose F st (ch :: a ++ rest) = (gs, off, rest, true) ->
    choose F st (ch :: a ++ rest') = (gs, off, rest', true) ->
    shown F st rest rest' -> shown F st (ch :: a ++ rest) (ch :: a ++ rest')
| sh_unknown ch d t t' gs off :
    ch <> 10 -> choose F st (ch :: d :: t) = (gs, off, d :: t, false) ->
    shown F st (d :: t) t' -> shown F st (ch :: d :: t) (0xFFFD :: t').

(** The loop of paint_str with the part of the string it has not consumed *)
Fixpoint paint_rest (n : nat) (m : cfg) (F : fontset) (clip : cliprect)
  (st : glyphstyle) (fb : frbuf) (c : cursor) (s : str) : res (frbuf * cursor * str) :=
  match n with
  | O => Ret (fb, c, s)
  | S n' =>
      match s with
      | [] => Ret (fb, c, s)
      | _ =>
          '(fb, c, s) <- paint_step m F clip st fb c s ;;
          paint_rest n' m F clip st fb c s
      end
  end.
