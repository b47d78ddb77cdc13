(** * Model of src/framebuffer.rs, src/pt.rs, src/cliprect.rs, src/cursor.rs
    and src/glyphstyle.rs. *)
From Verif Require Import Prim.

(** src/framebuffer.rs:7-10 *)
Definition WORDS_PER_LINE : N := 11.
Definition WIDTH : N := 336.
Definition LINES : N := 536.
Definition FRAME_BUF_SIZE : N := WORDS_PER_LINE * LINES.

(** src/framebuffer.rs:13.  The Rust type fixes the length and the range of the
    words; in the model both are the predicate [is_frbuf]. *)
Definition frbuf := list N.
Definition is_frbuf (fb : frbuf) : Prop :=
  N.of_nat (length fb) = FRAME_BUF_SIZE /\ Forall (fun w => w < 2 ^ 32) fb.

(** src/framebuffer.rs:16-18 *)
Definition new_fr_buf : frbuf := repeat 0xffff0000 (N.to_nat FRAME_BUF_SIZE).

(** src/pt.rs:8-18; x and y are usize *)
Record pt := Pt { px : N; py : N }.

(** src/pt.rs:7 derive(PartialEq, PartialOrd): compares the fields in
    declaration order *)
Definition pt_eqb (a b : pt) : bool := (px a =? px b) && (py a =? py b).
Definition pt_ltb (a b : pt) : bool :=
  (px a <? px b) || ((px a =? px b) && (py a <? py b)).

(** src/cliprect.rs:15-18 *)
Record cliprect := ClipRect { cmin : pt; cmax : pt }.

(** src/cliprect.rs:22-35: ClipRect::new *)
Definition cliprect_new (min_x min_y max_x max_y : N) : cliprect :=
  let mn := Pt min_x min_y in
  let mx := Pt max_x max_y in
  let '(mn, mx) :=
    if max_x <? min_x then (Pt max_x (py mn), Pt min_x (py mx)) else (mn, mx) in
  let '(mn, mx) :=
    if max_y <? min_y then (Pt (px mn) max_y, Pt (px mx) min_y) else (mn, mx) in
  ClipRect mn mx.

(** src/cliprect.rs:38-40 *)
Definition full_screen : cliprect := cliprect_new 0 0 WIDTH LINES.

(** src/cliprect.rs:43-46 (the subtractions are on constants) *)
Definition padded_screen : cliprect :=
  let pad := 6 in cliprect_new pad pad (WIDTH - pad) (LINES - pad).

(** src/cursor.rs:13-16 *)
Record cursor := Cursor { cpt : pt; line_height : N }.
Definition cx (c : cursor) : N := px (cpt c).
Definition cy (c : cursor) : N := py (cpt c).

(** src/cursor.rs:20-25 *)
Definition cursor_new (x y lh : N) : cursor := Cursor (Pt x y) lh.

(** src/cursor.rs:28-33 *)
Definition from_top_left_of (r : cliprect) : cursor := Cursor (cmin r) 0.

(** src/glyphstyle.rs:13-17 *)
Inductive glyphstyle := StSmall | StRegular | StBold.

(** src/glyphstyle.rs:21-30: From<usize> *)
Definition style_of_usize (gs : N) : glyphstyle :=
  match gs with
  | 0 => StSmall
  | 1 => StRegular
  | 2 => StBold
  | _ => StRegular
  end.

(** src/glyphstyle.rs:34-42: Into<usize> *)
Definition usize_of_style (s : glyphstyle) : N :=
  match s with StSmall => 0 | StRegular => 1 | StBold => 2 end.
