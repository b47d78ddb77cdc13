(** * Specification of string painting

    A small reference description of what paint_str should do: which glyph each
    part of the string selects, where it is placed, and which pixels it inverts.
    Numbers are unbounded, nothing panics, and there are no words, masks or
    bytes.  The only parts of the model used are the data types, the font tables
    and the Murmur3 hash. *)
From Verif Require Import Prim Geom Str M3Hash FontDefs Blit Spec.

(** ** Glyph bitmaps *)

(** Word i of the font's DATA array *)
Definition font_word (f : font) (i : N) : N := nth (N.to_nat i) (concat (f_data f)) 0.

(** Glyph record: a header word (w << 16 | h << 8 | y_offset), codegen/README and
    src/fonts.rs:24, followed by w*h pixels packed 32 to a word. *)
Definition gl_w (f : font) (off : N) : N := (font_word f off / 65536) mod 256.
Definition gl_h (f : font) (off : N) : N := (font_word f off / 256) mod 256.
Definition gl_y (f : font) (off : N) : N := font_word f off mod 256.

(** Pixel n of the packed stream: most significant bit first *)
Definition stream_bit (f : font) (off n : N) : bool :=
  N.testbit (font_word f (off + 1 + n / 32)) (31 - n mod 32).

(** Column i (from the left), row r of the bitmap: rows in order, each row stored
    right to left *)
Definition glyph_pixel (f : font) (off i r : N) : bool :=
  stream_bit f off (r * gl_w f off + (gl_w f off - 1 - i)).

(** ** Glyph selection *)

Fixpoint index_of (h : N) (l : list N) : option nat :=
  match l with
  | [] => None
  | v :: t => if v =? h then Some O else option_map S (index_of h t)
  end.

(** Number of characters and glyph offset of the first limit whose prefix hash is
    in the block's table *)
Fixpoint match_limits (f : font) (b : block) (s : str) (limits : list N) : option (N * nat) :=
  match limits with
  | [] => None
  | l :: rest =>
      match index_of (fst (grapheme_cluster s (f_seed f) l)) (b_hash b) with
      | Some k => Some (nth k (b_offset b) 0, Nat.min (N.to_nat l) (length s))
      | None => match_limits f b s rest
      end
  end.

(** The glyph (offset, number of characters) font f has for the start of s *)
Definition glyph_for (f : font) (s : str) : option (N * nat) :=
  match s with
  | [] => None
  | ch :: _ =>
      match find (fun b => (b_low b <=? ch) && (ch <=? b_high b)) (f_blocks f) with
      | Some b => match_limits f b s (b_limits b)
      | None => None
      end
  end.

(** Drop the first character, unless it is the only one *)
Definition drop_char (s : str) : str := match tl s with [] => s | t => t end.

(** What paint_str draws for the start of the non-empty string s: emoji first, then
    the Latin font of the style, then hanzi, then the replacement character.
    The result is the glyph, the rest of the string, and whether the glyph was
    found (false for the replacement).  An unknown character that is the last of
    the string is not consumed. *)
Definition choose (F : fontset) (st : glyphstyle) (s : str) : glyphset * N * str * bool :=
  match glyph_for (F Emoji) s with
  | Some (off, n) => (Emoji, off, skipn n s, true)
  | None =>
  match glyph_for (F (latin_set st)) s with
  | Some (off, n) => (latin_set st, off, skipn n s, true)
  | None =>
  match glyph_for (F Hanzi) s with
  | Some (off, n) => (Hanzi, off, skipn n s, true)
  | None =>
      let off := match glyph_for (F (latin_set st)) replacement with
                 | Some (off, _) => off | None => 0 end in
      (latin_set st, off, drop_char s, false)
  end end end.

(** ** Layout *)

Definition clip_width (clip : cliprect) : N := px (cmax clip) - px (cmin clip).

(** Clips xor_char accepts: not off the right or bottom edge, some width *)
Definition paintable (clip : cliprect) : Prop :=
  px (cmin clip) < px (cmax clip) <= WIDTH /\ py (cmax clip) <= LINES.

(** Left margin of the next line; a line is at least as high as the Small font *)
Definition break_line (F : fontset) (clip : cliprect) (c : cursor) : cursor :=
  Cursor (Pt (px (cmin clip)) (cy c + N.max (f_max_height (F Small)) (line_height c) + 1)) 0.

(** A glyph and the position of the top left pixel of its bitmap *)
Record placed := Placed { p_set : glyphset; p_off : N; p_x : N; p_y : N }.

(** The cursor moved to where the next glyph of width w goes *)
Definition seek (F : fontset) (clip : cliprect) (c : cursor) (w : N) : cursor :=
  let c := Cursor (Pt (N.max (cx c) (px (cmin clip))) (cy c)) (line_height c) in
  if px (cmax clip) <=? cx c + w + 3 then break_line F clip c else c.

(** One pixel of padding on the left, *)
Definition placed_at (F : fontset) (gs : glyphset) (off : N) (c : cursor) : placed :=
  Placed gs off (cx c + 1) (cy c + gl_y (F gs) off).

(** two on the right. *)
Definition after (F : fontset) (gs : glyphset) (off : N) (c : cursor) : cursor :=
  Cursor (Pt (cx c + gl_w (F gs) off + 3) (cy c)) (N.max (line_height c) (f_max_height (F gs))).

(** The glyphs painted and the final cursor.  [n] bounds the number of glyphs and
    newlines; paint_str uses the byte length of the string.  Painting stops at a
    glyph that would start below the clip; a replacement glyph there is skipped. *)
Fixpoint layout (n : nat) (F : fontset) (clip : cliprect) (st : glyphstyle)
  (c : cursor) (s : str) : list placed * cursor :=
  match n with
  | O => ([], c)
  | S n' =>
      match s with
      | [] => ([], c)
      | ch :: t =>
          if ch =? 10 then layout n' F clip st (break_line F clip c) t
          else
            let '(gs, off, rest, known) := choose F st s in
            let c1 := seek F clip c (gl_w (F gs) off) in
            let p := placed_at F gs off c1 in
            if py (cmax clip) <? p_y p then
              if known then ([], c1) else layout n' F clip st c1 rest
            else
              let '(ps, c') := layout n' F clip st (after F gs off c1) rest in
              (p :: ps, c')
      end
  end.

(** ** Ink *)

(** Glyph p inverts pixel (x, y) *)
Definition ink (F : fontset) (clip : cliprect) (p : placed) (x y : N) : bool :=
  let f := F (p_set p) in
  in_rect (p_x p) (p_y p) (p_x p + gl_w f (p_off p)) (p_y p + gl_h f (p_off p)) x y
  && (py (cmin clip) <=? y) && (y <? py (cmax clip))
  && glyph_pixel f (p_off p) (x - p_x p) (y - p_y p).

(** Parity of the number of glyphs that invert (x, y) *)
Fixpoint inked (F : fontset) (clip : cliprect) (ps : list placed) (x y : N) : bool :=
  match ps with
  | [] => false
  | p :: t => xorb (ink F clip p x y) (inked F clip t x y)
  end.

(** ** Well-formed fonts *)

Record glyph_ok (f : font) (off : N) : Prop := {
  go_w : 1 <= gl_w f off <= 32;
  go_h : 1 <= gl_h f off;
  go_height : gl_h f off + gl_y f off <= f_max_height f;
  go_data : off + 1 + (gl_w f off * gl_h f off + 31) / 32 <= N.of_nat (length (concat (f_data f)))
}.

Record block_ok (f : font) (b : block) : Prop := {
  bo_len : length (b_hash b) = length (b_offset b);
  bo_limits : Forall (fun l => 1 <= l) (b_limits b);
  bo_offsets : Forall (glyph_ok f) (b_offset b)
}.

(** All pieces but the last have 512 words *)
Fixpoint pieces_ok (a : bigarr) : Prop :=
  match a with
  | [] => True
  | [last] => (length last <= 512)%nat
  | p :: rest => length p = 512%nat /\ pieces_ok rest
  end.

Record font_ok (f : font) : Prop := {
  fo_pieces : pieces_ok (f_data f);
  fo_words : Forall (fun w => w < 2 ^ 32) (concat (f_data f));
  fo_size : N.of_nat (length (concat (f_data f))) < 2 ^ 31;
  fo_height : f_max_height f <= 255;
  fo_sorted : Forall (fun b => forall i j, (i < j < length (b_hash b))%nat ->
                          nth i (b_hash b) 0 < nth j (b_hash b) 0) (f_blocks f);
  fo_blocks : Forall (block_ok f) (f_blocks f)
}.

Record fontset_ok (F : fontset) : Prop := {
  fs_fonts : forall gs, font_ok (F gs);
  fs_replacement : forall st, glyph_for (F (latin_set st)) replacement <> None
}.

Definition tallest (F : fontset) : N :=
  N.max (f_max_height (F Emoji)) (N.max (f_max_height (F Bold)) (N.max (f_max_height (F Regular))
    (N.max (f_max_height (F Small)) (f_max_height (F Hanzi))))).

(** ** Conditions on calls *)

(** The cursor is far enough from the end of the usize range *)
Definition cursor_fits (m : cfg) (F : fontset) (c : cursor) (s : str) : Prop :=
  cx c + 36 <= usize_limit m /\
  cy c + line_height c + (tallest F + 1) * (str_len s + 1) <= usize_limit m.

(** The clip does not both start in the last 16 stored columns and reach the bottom line *)
Definition clip_fits (clip : cliprect) : Prop :=
  px (cmin clip) < 320 \/ py (cmax clip) < LINES.

(** A row of the bitmap is painted on the bottom line and goes past the last word of the
    frame buffer *)
Definition overruns (F : fontset) (clip : cliprect) (p : placed) : bool :=
  let f := F (p_set p) in
  (STORED_WIDTH <? p_x p + gl_w f (p_off p))
  && (p_y p <=? LINES - 1) && (LINES - 1 <? p_y p + gl_h f (p_off p))
  && (py (cmin clip) <=? LINES - 1) && (LINES - 1 <? py (cmax clip)).
