(** * Specification of the demos: strings painted one after the other on a clear
    screen, with one cursor *)
From Verif Require Import Prim Str Geom FontDefs Blit Demo Spec SpecPaint.

(** One paint_str call: clip, style, string *)
Definition call := (cliprect * glyphstyle * str)%type.

(** What the calls draw, and the cursor after them *)
Fixpoint script (F : fontset) (c : cursor) (calls : list call) : list (cliprect * list placed) * cursor :=
  match calls with
  | [] => ([], c)
  | (clip, st, s) :: t =>
      let '(ps, c') := layout (N.to_nat (str_len s)) F clip st c s in
      let '(more, c'') := script F c' t in
      ((clip, ps) :: more, c'')
  end.

(** Parity of the number of glyphs, of all calls, that invert (x, y) *)
Fixpoint script_inked (F : fontset) (drawn : list (cliprect * list placed)) (x y : N) : bool :=
  match drawn with
  | [] => false
  | (clip, ps) :: t => xorb (inked F clip ps x y) (script_inked F t x y)
  end.

(** The painting parts of the three demos *)
Definition demo_start := from_top_left_of padded_screen.
Definition greeting_calls : list call :=
  [(padded_screen, StRegular, str_hello_world); (padded_screen, StRegular, str_hello_cat)].
Definition poem_calls : list call := [(padded_screen, StRegular, str_poem)].
Definition sample_calls : list call :=
  [(padded_screen, StBold, str_note); (padded_screen, StRegular, str_note);
   (padded_screen, StSmall, str_note); (padded_screen, StRegular, str_sas1);
   (padded_screen, StRegular, str_sas2); (padded_screen, StRegular, str_sas3);
   (padded_screen, StRegular, str_sas4); (padded_screen, StRegular, str_wrap)].
(** The cursor after the first eight strings (src/demo.rs:32) *)
Definition sample_cursor : cursor := cursor_new 6 432 0.
(** min and max of the last clip: src/demo.rs:35-41: the last clip begins 12 rows below that cursor *)
Definition sample_clip : cliprect := cliprect_new 290 444 36 522.
Definition last_call : call := (sample_clip, StSmall, str_wrap).
Definition all_sample_calls : list call := sample_calls ++ [last_call].

(** A screen with only these drawings on it, in the padding the old contents *)
Definition shows_only (F : fontset) (drawn : list (cliprect * list placed)) (fb fb' : frbuf) : Prop :=
  is_frbuf fb' /\
  (forall x y, x < WIDTH -> y < LINES -> pixel fb' x y = negb (script_inked F drawn x y)) /\
  (forall x y, WIDTH <= x < STORED_WIDTH -> y < LINES -> pixel fb' x y = pixel fb x y).
