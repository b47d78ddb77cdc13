(** * Small specification vocabulary, independent of the model's control flow.

    Nothing here mentions words, masks or loops: a frame buffer is looked at only
    through [pixel]. *)
From Verif Require Import Prim Geom.

(** Number of pixel columns stored per line, including the 16 padding columns
    336..351 that are not on the screen. *)
Definition STORED_WIDTH : N := 352.

(** The pixel at column x, line y: the least significant bit of a word is its
    leftmost pixel (wasm_demo/main.js:40-41 shows bit n of word w at x = 32w+n). *)
Definition pixel (fb : frbuf) (x y : N) : bool :=
  N.testbit (nth (N.to_nat (y * WORDS_PER_LINE + x / 32)) fb 0) (x mod 32).

(** Half-open rectangles *)
Definition in_rect (x0 y0 x1 y1 x y : N) : bool :=
  (x0 <=? x) && (x <? x1) && (y0 <=? y) && (y <? y1).

(** Membership in a clip rectangle, src/cliprect.rs:9-10 ("inclusive of min and
    exclusive of max") *)
Definition in_clip (clip : cliprect) (x y : N) : bool :=
  in_rect (px (cmin clip)) (py (cmin clip)) (px (cmax clip)) (py (cmax clip)) x y.

(** A clip rectangle that is on the screen and has at least one pixel *)
Definition on_screen (clip : cliprect) : Prop :=
  px (cmin clip) < px (cmax clip) <= WIDTH /\ py (cmin clip) < py (cmax clip) <= LINES.
