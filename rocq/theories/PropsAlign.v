(** * C83: a line of text can be measured by painting it, and then placed *)
From Coq Require Import ZArith.
From Verif Require Import PrimFacts Geom Str FontDefs Blit Spec SpecPaint SpecMove Fonts FontsOk ClearProofs AlignProofs.

(** C83: when a text stays on its line, painting it again in the same clip from d columns further right shows the same
    pixels d columns further right, if the cursor it left, so moved, is left of the right edge; if not, it breaks the line *)
Theorem C83_align : forall m1 m2 F fb1 fb2 clip c st s d fb1' c1,
  cfg_ok m1 -> cfg_ok m2 -> fontset_ok F -> is_frbuf fb1 -> is_frbuf fb2 -> paintable clip -> 36 <= clip_width clip ->
  cursor_fits m1 F c s -> cursor_fits m2 F (move_cursor d 0 c) s ->
  px (cmin clip) <= cx c -> cy c + tallest F <= py (cmax clip) ->
  paint_str m1 F fb1 clip c st s = Ret (fb1', c1) -> cy c1 = cy c ->
  exists fb2' c2,
    paint_str m2 F fb2 clip (move_cursor d 0 c) st s = Ret (fb2', c2) /\
    (cx c1 + d < px (cmax clip) -> c2 = move_cursor d 0 c1 /\
      (forall x y, x + d < STORED_WIDTH -> y < LINES ->
        xorb (pixel fb2' (x + d) y) (pixel fb2 (x + d) y) = xorb (pixel fb1' x y) (pixel fb1 x y)) /\
      (forall x y, x < d -> x < STORED_WIDTH -> y < LINES -> pixel fb2' x y = pixel fb2 x y)) /\
    (px (cmax clip) <= cx c1 + d -> cx c < cx c1 -> cy c < cy c2).
Proof. exact paint_align. Qed.
Print Assumptions C83_align.

(** C83: to align a text at the right edge of a clip, paint it at the left margin of a scratch frame buffer first; the
    cursor then tells where to paint it, so that it stays on its line and the cursor ends in the last column *)
Theorem C83_right : forall m F scratch fb clip y st s scratch' c1,
  cfg_ok m -> fontset_ok F -> is_frbuf scratch -> is_frbuf fb -> paintable clip -> 36 <= clip_width clip ->
  (tallest F + 1) * (str_len s + 2) + LINES <= usize_limit m -> y + tallest F <= py (cmax clip) ->
  let c := Cursor (Pt (px (cmin clip)) y) 0 in
  paint_str m F scratch clip c st s = Ret (scratch', c1) -> cy c1 = y -> cx c1 < px (cmax clip) ->
  exists fb' c2,
    paint_str m F fb clip (Cursor (Pt (px (cmax clip) - 1 - (cx c1 - px (cmin clip))) y) 0) st s = Ret (fb', c2) /\
    cy c2 = y /\ cx c2 = px (cmax clip) - 1.
Proof.
  intros m F scratch fb clip y st s scratch' c1 Hm HF B1 B2 P W U Hb c E Ey Ex.
  assert (Hx : px (cmin clip) <= cx c1).
  { pose proof (LayoutProofs.paint_refines m F scratch clip c st s Hm HF B1 P W) as R.
    assert (Hf : cursor_fits m F c s).
    { destruct P as [P1 P2]. change WIDTH with 336 in P1. change LINES with 536 in *. split; unfold c, cx, cy; cbn [cpt px py line_height]; lia. }
    specialize (R Hf). pose proof (layout_le F clip st (N.to_nat (str_len s)) c s) as L.
    destruct (layout _ F clip st c s) as [ps c']. destruct R as (q & Q & _). rewrite E in Q. injection Q as _ <-. cbn [snd] in L.
    exact (le_line c c1 L Ey). }
  set (d := px (cmax clip) - 1 - cx c1).
  assert (Hmv : move_cursor d 0 c = Cursor (Pt (px (cmax clip) - 1 - (cx c1 - px (cmin clip))) y) 0).
  { unfold move_cursor, move_pt, c, d. cbn [cpt px py line_height]. f_equal. f_equal; lia. }
  assert (F1 : cursor_fits m F c s).
  { destruct P as [P1 P2]. change WIDTH with 336 in P1. change LINES with 536 in *. split; unfold c, cx, cy; cbn [cpt px py line_height]; lia. }
  assert (F2 : cursor_fits m F (move_cursor d 0 c) s).
  { rewrite Hmv. destruct P as [P1 P2]. change WIDTH with 336 in P1. change LINES with 536 in *. split; unfold cx, cy in *; cbn [cpt px py line_height]; lia. }
  destruct (paint_align m m F scratch fb clip c st s d scratch' c1 Hm Hm HF B1 B2 P W F1 F2 ltac:(apply N.le_refl) Hb E Ey)
    as (fb' & c2 & E2 & K & _). rewrite Hmv in E2. exists fb', c2. split; [exact E2|].
  destruct (K ltac:(lia)) as [-> _]. unfold move_cursor, move_pt, cx, cy in *. cbn [cpt px py]. lia.
Qed.
Print Assumptions C83_right.

(** "AA" is 34 wide; in a clip of 100 it can start in column 65 but not in column 66 *)
Example C83_case :
  let clip := cliprect_new 0 0 100 80 in
  let from x := match paint_str (Cfg true 32) blitstr_fonts blank clip (Cursor (Pt x 0) 0) StRegular [65; 65] with
    | Ret (_, c') => Some (cx c', cy c') | Panic => None end in
  from 0 = Some (34, 0) /\ from 65 = Some (99, 0) /\ from 66 = Some (17, 31) /\ paintable clip.
Proof. repeat split; vm_compute; reflexivity || discriminate. Qed.
