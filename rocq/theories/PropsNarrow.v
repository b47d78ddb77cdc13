(** * Properties C09, C14, C18, C22, C24 for clips of any width *)
From Coq Require Import ZArith.
From Verif Require Import PrimFacts Str Geom FontDefs Fonts Blit Spec FontsOk FbFacts PaintProofs LayoutProofs SpecNarrow NarrowProofs SpecPaint.

(** C14: for every clip xor_char accepts.  Either some glyph has a row on the bottom line
    that goes past the last word of the buffer, and the call panics, or the call returns,
    and these pixels have been inverted and no others. *)
Theorem C14_any_clip : forall m F fb clip c st s,
  cfg_ok m -> fontset_ok F -> is_frbuf fb -> paintable clip -> cursor_fits m F c s ->
  let '(ps, c') := layout_tries (N.to_nat (str_len s)) F clip st c s in
  if existsb (overruns F clip) ps then paint_str m F fb clip c st s = Panic
  else exists fb', paint_str m F fb clip c st s = Ret (fb', c') /\ is_frbuf fb' /\
    forall x y, x < STORED_WIDTH -> y < LINES ->
      pixel fb' x y = xorb (pixel fb x y) (inked_over F clip ps x y).
Proof. exact paint_exact. Qed.
Print Assumptions C14_any_clip.

(** Left of the last 32 stored columns no row goes past its end *)
Theorem C14_narrow_clip : forall m F fb clip c st s,
  cfg_ok m -> fontset_ok F -> is_frbuf fb -> paintable clip -> px (cmin clip) < 320 -> cursor_fits m F c s ->
  let '(ps, c') := layout_tries (N.to_nat (str_len s)) F clip st c s in
  exists fb', paint_str m F fb clip c st s = Ret (fb', c') /\ is_frbuf fb' /\
    forall x y, x < STORED_WIDTH -> y < LINES ->
      pixel fb' x y = xorb (pixel fb x y) (inked F clip ps x y).
Proof. exact paint_narrow. Qed.
Print Assumptions C14_narrow_clip.

(** In clips of 36 columns and more it is the layout of C14 *)
Theorem C14_wide_clip : forall n F clip st c s,
  fontset_ok F -> paintable clip -> 36 <= clip_width clip ->
  layout_tries n F clip st c s = layout n F clip st c s.
Proof. exact tries_layout. Qed.
Print Assumptions C14_wide_clip.

(** The cat at column 331, in a clip of 6 columns: its row 15, on line 50, goes on at the
    start of line 51 *)
Definition edge : cliprect := cliprect_new 330 0 336 500.
Example C14_case_edge : paintable edge /\
  let '(ps, c') := layout_tries 4 blitstr_fonts edge StRegular (Cursor (Pt 330 10) 0) [0x1F638] in
  map (fun p => (p_x p, p_y p)) ps = [(331, 35)] /\ c' = Cursor (Pt 364 35) 32 /\
  existsb (overruns blitstr_fonts edge) ps = false /\
  map (fun x => inked_over blitstr_fonts edge ps x 50) [349; 350; 351] = [true; true; false] /\
  map (fun x => inked_over blitstr_fonts edge ps x 51) [0; 1; 2; 3] = [true; true; false; true] /\
  map (fun x => inked blitstr_fonts edge ps x 51) [0; 1; 2; 3] = [false; false; false; false].
Proof.
  split; [unfold paintable, WIDTH, LINES; cbn; lia|]. vm_compute. repeat split; reflexivity.
Qed.

(** C09: paint_str panics exactly when a glyph overruns the buffer, which takes a clip
    that starts in the last 32 stored columns and reaches the bottom line *)
Theorem C09_panics_exactly : forall m F fb clip c st s,
  cfg_ok m -> fontset_ok F -> is_frbuf fb -> paintable clip -> cursor_fits m F c s ->
  (paint_str m F fb clip c st s = Panic <->
   exists p, In p (fst (layout_tries (N.to_nat (str_len s)) F clip st c s)) /\ overruns F clip p = true).
Proof. exact paint_panics_iff. Qed.
Print Assumptions C09_panics_exactly.

(** On the line at 500 the letter a has the rows above the bottom line only; the cat has
    a row on it *)
Example C09_case_overruns :
  let clip := cliprect_new 330 0 336 536 in
  let drawn c s := fst (layout_tries (N.to_nat (str_len s)) blitstr_fonts clip StRegular c s) in
  paintable clip /\ cursor_fits (Cfg true 64) blitstr_fonts (Cursor (Pt 330 480) 0) [0x1F638] /\
  map (overruns blitstr_fonts clip) (drawn (Cursor (Pt 330 470) 0) [97]) = [false] /\
  map (overruns blitstr_fonts clip) (drawn (Cursor (Pt 330 480) 0) [0x1F638]) = [true].
Proof.
  split; [unfold paintable, WIDTH, LINES; cbn; lia|]. split; [split; vm_compute; congruence|].
  split; vm_compute; reflexivity.
Qed.

(** C18 *)
Theorem C18_any_clip : forall n F clip st c s,
  let '(ps, c') := layout_tries n F clip st c s in
  line_height c' = line_max F (cy c') ps (if cy c' =? cy c then line_height c else 0).
Proof. intros n F clip st c s. rewrite layout_tries_any. exact (layout_line_height F clip st n c s). Qed.
Print Assumptions C18_any_clip.

(** C24 *)
Theorem C24_any_clip : forall n F clip st c s, fontset_ok F ->
  ForallOrdPairs (box_after F) (fst (layout_tries n F clip st c s)).
Proof. exact paint_any_disjoint. Qed.
Print Assumptions C24_any_clip.

(** C22, what is wrong in a narrow clip: a known cluster that would start below the clip
    and is too wide for it does not end the call.  It is tried once for each byte of the
    string, each time on a new line, so the cursor ends far below the clip. *)
Theorem C22_narrow_clip_scrolls : forall m F fb clip c st s gs off rest,
  cfg_ok m -> fontset_ok F -> is_frbuf fb -> paintable clip -> clip_fits clip -> cursor_fits m F c s ->
  s <> [] -> nth_error s 0 <> Some 10 ->
  choose F st s = (gs, off, rest, true) -> clip_width clip <= gl_w (F gs) off + 3 ->
  py (cmax clip) < cy (break_line F clip c) + gl_y (F gs) off ->
  paint_str m F fb clip c st s = Ret (fb, Nat.iter (N.to_nat (str_len s)) (break_line F clip) c).
Proof. exact paint_scrolls. Qed.
Print Assumptions C22_narrow_clip_scrolls.

Theorem C22_stops_below_narrow_clip_refuted : forall m fb, cfg_ok m -> is_frbuf fb ->
  let clip := cliprect_new 0 0 20 60 in let c := Cursor (Pt 0 60) 0 in let s := [0x1F638; 97; 97; 97; 97] in
  match choose blitstr_fonts StRegular s with
  | (gs, off, _, known) => known = true /\
      py (cmax clip) < p_y (placed_at blitstr_fonts gs off (seek blitstr_fonts clip c (gl_w (blitstr_fonts gs) off))) /\
      seek blitstr_fonts clip c (gl_w (blitstr_fonts gs) off) = Cursor (Pt 0 85) 0
  end /\
  paint_str m blitstr_fonts fb clip c StRegular s = Ret (fb, Cursor (Pt 0 260) 0).
Proof.
  intros m fb Hm Hfb clip c s. split; [vm_compute; auto|].
  destruct (choose blitstr_fonts StRegular s) as [[[gs off] rest] known] eqn:E.
  assert (X : choose blitstr_fonts StRegular s = (Emoji, 50812, [97; 97; 97; 97], true)) by (vm_compute; reflexivity).
  rewrite E in X. injection X as -> -> -> ->.
  pose proof (C22_narrow_clip_scrolls m blitstr_fonts fb clip c StRegular s Emoji 50812 [97; 97; 97; 97]
                Hm fonts_ok Hfb) as H.
  rewrite H; [vm_compute; reflexivity| | | | | |exact E| |].
  - unfold paintable, WIDTH, LINES; cbn; lia.
  - left; cbn; lia.
  - revert m Hm H. apply (all_cfgs (fun m => _ -> cursor_fits m blitstr_fonts c s)); intros _; split; vm_compute; congruence.
  - discriminate.
  - discriminate.
  - vm_compute; congruence.
  - vm_compute; reflexivity.
Qed.
Print Assumptions C22_stops_below_narrow_clip_refuted.
