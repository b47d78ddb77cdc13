(** * Moving clip and cursor moves the picture: proofs *)
From Coq Require Import ZArith.
From Verif Require Import PrimFacts Geom Str FontDefs Blit Spec SpecPaint SpecMove Fonts FontsOk LayoutProofs.

Definition move_placed (dx dy : N) (p : placed) : placed := Placed (p_set p) (p_off p) (p_x p + dx) (p_y p + dy).

Lemma seek_move F clip c w dx dy : seek F (move_clip dx dy clip) (move_cursor dx dy c) w = move_cursor dx dy (seek F clip c w).
Proof.
  unfold seek, break_line, move_cursor, move_clip, move_pt. cbn [cx cy cpt px py cmin cmax line_height].
  unfold cx, cy. cbn [cpt px py].
  rewrite N.add_max_distr_r.
  replace (px (cmax clip) + dx <=? N.max (px (cpt c)) (px (cmin clip)) + dx + w + 3)
    with (px (cmax clip) <=? N.max (px (cpt c)) (px (cmin clip)) + w + 3) by lia.
  destruct (_ <=? _); cbn [cpt px py line_height]; [|reflexivity].
  f_equal. f_equal. lia.
Qed.

Lemma break_move F clip c dx dy : break_line F (move_clip dx dy clip) (move_cursor dx dy c) = move_cursor dx dy (break_line F clip c).
Proof. unfold break_line, move_cursor, move_clip, move_pt. unfold cy. cbn [cpt px py cmin cmax line_height]. f_equal. f_equal. lia. Qed.

Lemma layout_move F clip st dx dy : forall n c s,
  layout n F (move_clip dx dy clip) st (move_cursor dx dy c) s =
  (map (move_placed dx dy) (fst (layout n F clip st c s)), move_cursor dx dy (snd (layout n F clip st c s))).
Proof.
  induction n as [|n IH]; intros c s; [reflexivity|]. cbn [layout]. destruct s as [|ch t]; [reflexivity|].
  destruct (ch =? 10); [rewrite break_move; apply IH|].
  destruct (choose F st (ch :: t)) as [[[gs off] rest] known]. cbv zeta. rewrite seek_move.
  set (c1 := seek F clip c _).
  replace (py (cmax (move_clip dx dy clip)) <? p_y (placed_at F gs off (move_cursor dx dy c1)))
    with (py (cmax clip) <? p_y (placed_at F gs off c1))
    by (unfold move_clip, move_cursor, move_pt, placed_at, cy; cbn [cmax cpt p_y px py]; lia).
  destruct (_ <? _); [destruct known; [reflexivity|apply IH]|].
  replace (after F gs off (move_cursor dx dy c1)) with (move_cursor dx dy (after F gs off c1))
    by (unfold move_cursor, move_pt, after, cx, cy; cbn [cpt px py line_height]; f_equal; f_equal; lia).
  rewrite IH. destruct (layout n F clip st (after F gs off c1) rest) as [ps c']. cbn [fst snd map]. f_equal. f_equal.
  unfold placed_at, move_placed, move_cursor, move_pt, cx, cy. cbn [cpt px py p_set p_off p_x p_y]. f_equal; lia.
Qed.

Lemma ink_move F clip p dx dy x y : ink F (move_clip dx dy clip) (move_placed dx dy p) (x + dx) (y + dy) = ink F clip p x y.
Proof.
  unfold ink, in_rect, move_clip, move_pt, move_placed. cbn [cmin cmax px py p_set p_off p_x p_y].
  replace (x + dx - (p_x p + dx)) with (x - p_x p) by lia. replace (y + dy - (p_y p + dy)) with (y - p_y p) by lia.
  f_equal. lia.
Qed.
Lemma inked_move F clip ps dx dy x y : inked F (move_clip dx dy clip) (map (move_placed dx dy) ps) (x + dx) (y + dy) = inked F clip ps x y.
Proof. induction ps as [|p ps IH]; [reflexivity|]. cbn [map inked]. rewrite ink_move, IH. reflexivity. Qed.

Lemma paint_elsewhere : forall m1 m2 F fb1 fb2 clip c st s x1 y1 x2 y2,
  cfg_ok m1 -> cfg_ok m2 -> fontset_ok F -> is_frbuf fb1 -> is_frbuf fb2 -> 36 <= clip_width clip ->
  paintable (move_clip x1 y1 clip) -> paintable (move_clip x2 y2 clip) ->
  cursor_fits m1 F (move_cursor x1 y1 c) s -> cursor_fits m2 F (move_cursor x2 y2 c) s ->
  exists fb1' fb2' c',
    paint_str m1 F fb1 (move_clip x1 y1 clip) (move_cursor x1 y1 c) st s = Ret (fb1', move_cursor x1 y1 c') /\
    paint_str m2 F fb2 (move_clip x2 y2 clip) (move_cursor x2 y2 c) st s = Ret (fb2', move_cursor x2 y2 c') /\
    forall x y, x + x1 < STORED_WIDTH -> y + y1 < LINES -> x + x2 < STORED_WIDTH -> y + y2 < LINES ->
      xorb (pixel fb1' (x + x1) (y + y1)) (pixel fb1 (x + x1) (y + y1)) =
      xorb (pixel fb2' (x + x2) (y + y2)) (pixel fb2 (x + x2) (y + y2)).
Proof.
  intros m1 m2 F fb1 fb2 clip c st s x1 y1 x2 y2 H1 H2 HF B1 B2 Hw P1 P2 C1 C2.
  assert (W : forall dx dy, 36 <= clip_width (move_clip dx dy clip)).
  { intros dx dy. unfold clip_width, move_clip, move_pt in *. cbn [cmin cmax px py] in *. lia. }
  pose proof (paint_refines m1 F fb1 _ _ st s H1 HF B1 P1 (W x1 y1) C1) as R1.
  pose proof (paint_refines m2 F fb2 _ _ st s H2 HF B2 P2 (W x2 y2) C2) as R2.
  rewrite layout_move in R1, R2. destruct (layout _ F clip st c s) as [ps c']. cbn [fst snd] in R1, R2.
  destruct R1 as (fb1' & E1 & _ & D1). destruct R2 as (fb2' & E2 & _ & D2).
  exists fb1', fb2', c'. split; [exact E1|]. split; [exact E2|]. intros x y X1 Y1 X2 Y2.
  rewrite (D1 _ _ X1 Y1), (D2 _ _ X2 Y2), !inked_move.
  destruct (pixel fb1 _ _), (pixel fb2 _ _), (inked _ _ _ _ _); reflexivity.
Qed.
