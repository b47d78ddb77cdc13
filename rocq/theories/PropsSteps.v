(** * C68: what a panic leaves behind *)
From Coq Require Import ZArith.
From Verif Require Import PrimFacts Str Geom FontDefs Fonts FontsOk Blit BlitSteps Spec SpecPaint SpecNarrow SpecSteps.
From Verif Require Import FbFacts ClearProofs StepsProofs StepsPaint StepsClear.

(** C68: run assignment by assignment, paint_str and clear_region return exactly when, and with what,
    the model of the other properties says; [w_fb] and [w_cur] are the caller's frame buffer and cursor *)
Theorem C68_paint_agrees : forall m F clip st s fb c fb' c',
  (paint_str m F fb clip c st s = Ret (fb', c') <->
   paint_str_steps m F clip st s (World fb c) = (World fb' c', Ret tt)) /\
  (paint_str m F fb clip c st s = Panic <-> snd (paint_str_steps m F clip st s (World fb c)) = Panic).
Proof.
  intros m F clip st s fb c fb' c'. pose proof (paint_erase m F clip st s fb c) as E. unfold erase in E.
  destruct (paint_str_steps m F clip st s (World fb c)) as [[f d] [[]|]]; destruct (paint_str m F fb clip c st s) as [[g e]|];
    cbn [bind w_fb w_cur snd] in *; try discriminate E.
  - injection E as -> ->. split; split; congruence.
  - split; split; congruence.
Qed.
Print Assumptions C68_paint_agrees.

Theorem C68_clear_agrees : forall m clip fb c fb',
  (clear_region m fb clip = Ret fb' <-> clear_region_steps m clip (World fb c) = (World fb' c, Ret tt)) /\
  (clear_region m fb clip = Panic <-> snd (clear_region_steps m clip (World fb c)) = Panic).
Proof.
  intros m clip fb c fb'. pose proof (clear_erase m clip fb c) as E. unfold erase in E.
  destruct (clear_region_steps m clip (World fb c)) as [[f d] [[]|]]; destruct (clear_region m fb clip) as [g|];
    cbn [bind w_fb w_cur snd] in *; try discriminate E.
  - injection E as -> ->. split; split; congruence.
  - split; split; congruence.
Qed.
Print Assumptions C68_clear_agrees.

(** C68: when clear_region panics it has cleared the top line of the rectangle and nothing else *)
Theorem C68_clear_panic : forall m fb clip c,
  cfg_ok m -> is_frbuf fb -> clear_region m fb clip = Panic ->
  exists fb', clear_region_steps m clip (World fb c) = (World fb' c, Panic) /\ is_frbuf fb' /\
    forall x y, x < STORED_WIDTH -> y < LINES ->
      pixel fb' x y = pixel fb x y || in_rect (px (cmin clip)) (py (cmin clip)) (px (cmax clip)) (py (cmin clip) + 1) x y.
Proof. intros m fb clip c Hm Hfb. exact (clear_stop m fb clip c Hm Hfb). Qed.
Print Assumptions C68_clear_panic.

(** C68: paint_str, returning or not, has inverted the pixels of the glyphs [layout_stop] lists,
    and has left the cursor where it says; a glyph that makes it panic is painted as far as the
    frame buffer reaches *)
Theorem C68_paint_stops : forall m F clip st fb c s,
  cfg_ok m -> fontset_ok F -> paintable clip -> is_frbuf fb -> cursor_fits m F c s ->
  let '(ps, c', stop) := layout_stop (N.to_nat (str_len s)) F clip st c s in
  exists fb', paint_str_steps m F clip st s (World fb c) = (World fb' c', if stop then Panic else Ret tt) /\
    is_frbuf fb' /\ forall x y, x < STORED_WIDTH -> y < LINES ->
      pixel fb' x y = xorb (pixel fb x y) (inked_over F clip ps x y).
Proof. intros m F clip st fb c s Hm HF Hclip. exact (paint_stop m F clip st Hm HF Hclip fb c s). Qed.
Print Assumptions C68_paint_stops.

(** These are the glyphs of C14 up to the first one that overruns *)
Theorem C68_first_glyphs : forall F clip st n c s,
  fst (fst (layout_stop n F clip st c s)) = until (overruns F clip) (fst (layout_tries n F clip st c s)) /\
  snd (layout_stop n F clip st c s) = existsb (overruns F clip) (fst (layout_tries n F clip st c s)) /\
  (snd (layout_stop n F clip st c s) = false -> fst (layout_stop n F clip st c s) = layout_tries n F clip st c s).
Proof. intros F clip st n. exact (stop_until F clip st n). Qed.
Print Assumptions C68_first_glyphs.

(** C68: a line break whose line would be past the end of usize panics in builds that check, with the cursor at the
    left margin of the old line, which is as high as a line of its text has to be *)
Theorem C68_newline_panic : forall m F clip st t fb c,
  ovf m = true -> usize_limit m <= cy c + (N.max (f_max_height (F Small)) (line_height c) + 1) ->
  paint_str_steps m F clip st (10 :: t) (World fb c) =
    (World fb (Cursor (Pt (px (cmin clip)) (cy c)) (N.max (f_max_height (F Small)) (line_height c))), Panic).
Proof. exact newline_panic. Qed.
Print Assumptions C68_newline_panic.

(** C68: for all fonts, clips, cursors and builds, painting the same again from the same cursor
    restores the frame buffer, and panics again if it did *)
Theorem C68_twice : forall m F clip st s fb c w r,
  N.of_nat (length fb) = FRAME_BUF_SIZE ->
  paint_str_steps m F clip st s (World fb c) = (w, r) ->
  paint_str_steps m F clip st s (World (w_fb w) c) = (World fb (w_cur w), r).
Proof. exact paint_twice. Qed.
Print Assumptions C68_twice.

(** C68: which pixels are inverted, the cursor, and whether it panics do not depend on the contents *)
Theorem C68_independent : forall m F clip st s fb1 fb2 c,
  N.of_nat (length fb1) = FRAME_BUF_SIZE -> N.of_nat (length fb2) = FRAME_BUF_SIZE ->
  let '(w1, r1) := paint_str_steps m F clip st s (World fb1 c) in
  let '(w2, r2) := paint_str_steps m F clip st s (World fb2 c) in
  r1 = r2 /\ w_cur w1 = w_cur w2 /\
  forall i, N.lxor (nth i fb1 0) (nth i (w_fb w1) 0) = N.lxor (nth i fb2 0) (nth i (w_fb w2) 0).
Proof. exact paint_same. Qed.
Print Assumptions C68_independent.

(** A clip six pixels wide at the right edge: the letter and the cat are each moved to a new line and
    painted there; the cat reaches beyond the last word of the bottom line, so painting stops, with the
    part of the cat that is on the screen painted and the cursor still before it *)
Definition corner : cliprect := cliprect_new 330 0 336 536.
Example C68_case_paint :
  let c := Cursor (Pt 330 460) 0 in
  let '(w, r) := paint_str_steps (Cfg true 64) blitstr_fonts corner StRegular [97; 0x1F638] (World blank c) in
  let '(ps, c', stop) := layout_stop 5 blitstr_fonts corner StRegular c [97; 0x1F638] in
  paintable corner /\ r = Panic /\ stop = true /\ length ps = 2%nat /\ w_cur w = c' /\ c' = Cursor (Pt 330 516) 0 /\
  map (fun y => pixel (w_fb w) 351 y) [533; 534; 535] = [true; false; true].
Proof. vm_compute. repeat split; try congruence. Qed.
Example C68_case_clear :
  let clip := cliprect_new 10 5 64 9 in
  let '(w, r) := clear_region_steps (Cfg true 32) clip (World blank (Cursor (Pt 1 2) 3)) in
  r = Panic /\ w_cur w = Cursor (Pt 1 2) 3 /\
  map (fun x => (pixel (w_fb w) x 5, pixel (w_fb w) x 6)) [9; 10; 63; 64] = [(false, false); (true, false); (true, false); (false, false)].
Proof. vm_compute. repeat split. Qed.
Example C68_case_newline :
  let c := Cursor (Pt 7 4294967290) 3 in
  usize_limit (Cfg true 32) <= cy c + (N.max (f_max_height (blitstr_fonts Small)) (line_height c) + 1) /\
  w_cur (fst (paint_str_steps (Cfg true 32) blitstr_fonts corner StBold [10; 97] (World blank c))) = Cursor (Pt 330 4294967290) 24.
Proof. split; vm_compute; [discriminate|reflexivity]. Qed.
