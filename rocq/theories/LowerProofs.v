(** * Moving the cursor down: proofs *)
From Coq Require Import ZArith.
From Verif Require Import PrimFacts FbFacts Geom Str FontDefs Blit Spec SpecPaint SpecMove PaintProofs LayoutProofs MoveProofs AlignProofs.

Definition between (F : fontset) (a b : N) (p : placed) : Prop := a <= p_y p /\ p_y p + gl_h (F (p_set p)) (p_off p) <= b.

Lemma seek_lower F clip c w d : seek F clip (move_cursor 0 d c) w = move_cursor 0 d (seek F clip c w).
Proof.
  unfold seek, move_cursor, move_pt, break_line, cx, cy. cbn [cpt px py line_height]. rewrite !N.add_0_r.
  destruct (_ <=? _); cbn [cpt px py line_height]; f_equal; f_equal; lia.
Qed.
Lemma break_lower_moved F clip c d : break_line F clip (move_cursor 0 d c) = move_cursor 0 d (break_line F clip c).
Proof. unfold break_line, move_cursor, move_pt, cy. cbn [cpt px py line_height]. f_equal. f_equal; lia. Qed.

(** The row below the line of the cursor *)
Lemma bottom_break F clip c : cy c + line_height c <= cy (break_line F clip c) + line_height (break_line F clip c).
Proof. unfold break_line, cy. cbn [cpt py line_height]. lia. Qed.
Lemma bottom_seek F clip c w : cy c + line_height c <= cy (seek F clip c w) + line_height (seek F clip c w).
Proof. unfold seek. destruct (_ <=? _); [|apply N.le_refl]. unfold break_line, cy. cbn [cpt py line_height]. lia. Qed.
Lemma bottom_le F clip st : forall n c s,
  cy c + line_height c <= cy (snd (layout n F clip st c s)) + line_height (snd (layout n F clip st c s)).
Proof.
  induction n as [|n IH]; intros c s; cbn [layout]; [apply N.le_refl|]. destruct s as [|ch t]; [apply N.le_refl|].
  destruct (ch =? 10); [pose proof (bottom_break F clip c); specialize (IH (break_line F clip c) t); lia|].
  destruct (choose F st (ch :: t)) as [[[gs off] rest] known]. cbv zeta.
  pose proof (bottom_seek F clip c (gl_w (F gs) off)) as Hs. set (c1 := seek F clip c _) in *.
  destruct (_ <? _).
  - destruct known; [exact Hs|]. specialize (IH c1 rest). lia.
  - specialize (IH (after F gs off c1) rest). destruct (layout n F clip st (after F gs off c1) rest) as [ps c']. cbn [snd] in *.
    change (cy (after F gs off c1)) with (cy c1) in IH.
    change (line_height (after F gs off c1)) with (N.max (line_height c1) (f_max_height (F gs))) in IH. lia.
Qed.

Lemma layout_lowered F clip st d : fontset_ok F -> forall n c s,
  cy (snd (layout n F clip st c s)) + line_height (snd (layout n F clip st c s)) + d <= py (cmax clip) ->
  layout n F clip st (move_cursor 0 d c) s =
  (map (move_placed 0 d) (fst (layout n F clip st c s)), move_cursor 0 d (snd (layout n F clip st c s))) /\
  Forall (between F (cy c) (cy (snd (layout n F clip st c s)) + line_height (snd (layout n F clip st c s)))) (fst (layout n F clip st c s)).
Proof.
  intros HF. induction n as [|n IH]; intros c s; [intros _; split; [reflexivity|constructor]|].
  cbn [layout]. destruct s as [|ch t]; [intros _; split; [reflexivity|constructor]|].
  assert (Wk : forall a a' b ps, a <= a' -> Forall (between F a' b) ps -> Forall (between F a b) ps).
  { intros a a' b ps H. apply Forall_impl. intros p [H1 H2]. split; lia. }
  destruct (ch =? 10).
  { rewrite break_lower_moved. intros H. destruct (IH (break_line F clip c) t H) as [I1 I2]. split; [exact I1|].
    apply (Wk _ (cy (break_line F clip c))); [pose proof (break_lower F clip c); lia|exact I2]. }
  destruct (choose F st (ch :: t)) as [[[gs off] rest] known] eqn:Ech. cbv zeta. rewrite seek_lower.
  assert (Hg : glyph_ok (F gs) off) by (eapply (choose_ok F st HF); [|exact Ech]; discriminate).
  pose proof (go_height _ _ Hg) as Hh.
  pose proof (le_lower _ _ (seek_le F clip c (gl_w (F gs) off))) as Hs.
  set (c1 := seek F clip c (gl_w (F gs) off)) in *.
  assert (Py : p_y (placed_at F gs off c1) = cy c1 + gl_y (F gs) off) by reflexivity.
  assert (Py' : p_y (placed_at F gs off (move_cursor 0 d c1)) = cy c1 + d + gl_y (F gs) off) by reflexivity.
  rewrite Py, Py'.
  destruct (N.ltb_spec (py (cmax clip)) (cy c1 + gl_y (F gs) off)) as [L|L].
  { replace (py (cmax clip) <? cy c1 + d + gl_y (F gs) off) with true by lia.
    destruct known; cbn [fst snd]; [intros _; split; [reflexivity|constructor]|].
    intros H. destruct (IH c1 rest H) as [I1 I2]. split; [exact I1|]. apply (Wk _ (cy c1)); assumption. }
  assert (A : after F gs off (move_cursor 0 d c1) = move_cursor 0 d (after F gs off c1)).
  { unfold move_cursor, move_pt, after, cx, cy; cbn [cpt px py line_height]; f_equal; f_equal; lia. }
  rewrite A. specialize (IH (after F gs off c1) rest).
  pose proof (bottom_le F clip st n (after F gs off c1) rest) as Hle. change (cy (after F gs off c1)) with (cy c1) in *.
  change (line_height (after F gs off c1)) with (N.max (line_height c1) (f_max_height (F gs))) in Hle.
  destruct (layout n F clip st (after F gs off c1) rest) as [ps c'] eqn:EL. cbn [fst snd] in *. intros H.
  pose proof (go_h _ _ Hg).
  replace (py (cmax clip) <? cy c1 + d + gl_y (F gs) off) with false by lia.
  destruct (IH H) as [I1 I2]. rewrite I1. split.
  - cbn [map]. f_equal. f_equal. unfold placed_at, move_placed, move_cursor, move_pt, cx, cy. cbn [cpt px py p_set p_off p_x p_y]. f_equal; lia.
  - constructor; [|apply (Wk _ (cy c1)); [exact Hs|exact I2]].
    split; rewrite Py; [lia|]. unfold placed_at. cbn [p_set p_off]. lia.
Qed.

Lemma inked_lowered F clip ps d a b x y : py (cmin clip) <= a -> b + d <= py (cmax clip) -> Forall (between F a b) ps ->
  inked F clip (map (move_placed 0 d) ps) x (y + d) = inked F clip ps x y.
Proof.
  intros Ha Hb. induction 1 as [|p ps [H1 H2] _ IH]; [reflexivity|]. cbn [map inked]. rewrite IH. f_equal.
  unfold ink, in_rect, move_placed. cbn [p_set p_off p_x p_y]. rewrite N.add_0_r.
  replace (y + d - (p_y p + d)) with (y - p_y p) by lia. f_equal. lia.
Qed.
Lemma inked_above F clip ps d x y : y < d -> inked F clip (map (move_placed 0 d) ps) x y = false.
Proof.
  intros H. induction ps as [|p ps IH]; [reflexivity|]. cbn [map inked]. rewrite IH. unfold ink, in_rect, move_placed. cbn [p_x p_y].
  replace (p_y p + d <=? y) with false by lia. rewrite ?andb_false_r, ?andb_false_l. reflexivity.
Qed.

Lemma paint_lowered m1 m2 F fb1 fb2 clip c st s d fb1' c1 :
  cfg_ok m1 -> cfg_ok m2 -> fontset_ok F -> is_frbuf fb1 -> is_frbuf fb2 -> paintable clip -> 36 <= clip_width clip ->
  cursor_fits m1 F c s -> cursor_fits m2 F (move_cursor 0 d c) s -> py (cmin clip) <= cy c ->
  paint_str m1 F fb1 clip c st s = Ret (fb1', c1) -> cy c1 + line_height c1 + d <= py (cmax clip) ->
  exists fb2',
    paint_str m2 F fb2 clip (move_cursor 0 d c) st s = Ret (fb2', move_cursor 0 d c1) /\
    (forall x y, x < STORED_WIDTH -> y + d < LINES ->
      xorb (pixel fb2' x (y + d)) (pixel fb2 x (y + d)) = xorb (pixel fb1' x y) (pixel fb1 x y)) /\
    (forall x y, x < STORED_WIDTH -> y < d -> y < LINES -> pixel fb2' x y = pixel fb2 x y).
Proof.
  intros H1 H2 HF B1 B2 P W C1 C2 Hl E1 Hb.
  pose proof (paint_refines m1 F fb1 clip c st s H1 HF B1 P W C1) as R1.
  pose proof (paint_refines m2 F fb2 clip _ st s H2 HF B2 P W C2) as R2.
  pose proof (layout_lowered F clip st d HF (N.to_nat (str_len s)) c s) as L.
  destruct (layout _ F clip st c s) as [ps c1']. destruct R1 as (q & Q & _ & D1). rewrite E1 in Q. injection Q as <- <-.
  cbn [fst snd] in L. destruct (L Hb) as [L1 L2]. rewrite L1 in R2. destruct R2 as (fb2' & E2 & _ & D2).
  exists fb2'. split; [exact E2|]. split.
  - intros x y Hx Hy. rewrite (D2 _ _ Hx Hy), (D1 x y Hx ltac:(lia)).
    rewrite (inked_lowered F clip ps d (cy c) (cy c1 + line_height c1)); [|exact Hl|lia|exact L2].
    destruct (pixel fb1 _ _), (pixel fb2 _ _), (inked _ _ _ _ _); reflexivity.
  - intros x y Hx Hd Hy. rewrite (D2 _ _ Hx Hy), inked_above by exact Hd. apply xorb_false_r.
Qed.
