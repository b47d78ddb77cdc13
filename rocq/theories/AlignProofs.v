(** * Moving only the cursor: proofs *)
From Coq Require Import ZArith.
From Verif Require Import PrimFacts FbFacts Geom Str FontDefs Blit Spec SpecPaint SpecMove PaintProofs LayoutProofs MoveProofs.

Lemma layout_le F clip st : forall n c s, cursor_le c (snd (layout n F clip st c s)).
Proof.
  induction n as [|n IH]; intros c s; cbn [layout]; [apply cursor_le_refl|].
  destruct s as [|ch t]; [apply cursor_le_refl|].
  destruct (ch =? 10).
  { eapply cursor_le_trans; [apply (break_line_le F clip)|apply IH]. }
  destruct (choose F st (ch :: t)) as [[[gs off] rest] known].
  pose proof (seek_le F clip c (gl_w (F gs) off)) as H1. cbv zeta.
  destruct (_ <? _).
  - destruct known; [exact H1|]. eapply cursor_le_trans; [exact H1|apply IH].
  - pose proof (after_le F gs off (seek F clip c (gl_w (F gs) off))) as H2.
    specialize (IH (after F gs off (seek F clip c (gl_w (F gs) off))) rest).
    destruct (layout n F clip st _ rest) as [ps c']. cbn [snd] in *.
    eapply cursor_le_trans; [exact H1|]. eapply cursor_le_trans; [exact H2|exact IH].
Qed.

Lemma break_lower F clip c : cy c < cy (break_line F clip c).
Proof. unfold break_line, cy. cbn [cpt py]. lia. Qed.
Lemma le_lower a b : cursor_le a b -> cy a <= cy b.
Proof. unfold cursor_le, cy. lia. Qed.
Lemma le_line a b : cursor_le a b -> cy b = cy a -> cx a <= cx b.
Proof. unfold cursor_le, cx, cy. lia. Qed.

Lemma layout_align F clip st d : fontset_ok F -> forall n c s,
  px (cmin clip) <= cx c -> cy c + tallest F <= py (cmax clip) ->
  cy (snd (layout n F clip st c s)) = cy c ->
  (cx (snd (layout n F clip st c s)) + d < px (cmax clip) ->
    layout n F clip st (move_cursor d 0 c) s =
    (map (move_placed d 0) (fst (layout n F clip st c s)), move_cursor d 0 (snd (layout n F clip st c s)))) /\
  (px (cmax clip) <= cx (snd (layout n F clip st c s)) + d -> cx c < cx (snd (layout n F clip st c s)) ->
    cy c < cy (snd (layout n F clip st (move_cursor d 0 c) s))).
Proof.
  intros HF. induction n as [|n IH]; intros c s Hl Hb.
  { intros _. split; [reflexivity|]. cbn [layout snd]. lia. }
  cbn [layout]. destruct s as [|ch t].
  { intros _. split; [reflexivity|]. cbn [layout snd]. lia. }
  destruct (ch =? 10).
  { intros E. exfalso. pose proof (le_lower _ _ (layout_le F clip st n (break_line F clip c) t)).
    pose proof (break_lower F clip c). lia. }
  destruct (choose F st (ch :: t)) as [[[gs off] rest] known] eqn:Ech. cbv zeta.
  assert (Hg : glyph_ok (F gs) off) by (eapply (choose_ok F st HF); [|exact Ech]; discriminate).
  assert (Hy : gl_y (F gs) off <= tallest F).
  { pose proof (go_height _ _ Hg). pose proof (tallest_ge F gs). lia. }
  set (w := gl_w (F gs) off) in *. unfold seek.
  change (line_height (move_cursor d 0 c)) with (line_height c).
  assert (C0 : Cursor (Pt (N.max (cx c) (px (cmin clip))) (cy c)) (line_height c) = c).
  { rewrite N.max_l by lia. destruct c as [[x y] h]. reflexivity. }
  assert (C1 : Cursor (Pt (N.max (cx (move_cursor d 0 c)) (px (cmin clip))) (cy (move_cursor d 0 c))) (line_height c) = move_cursor d 0 c).
  { rewrite N.max_l by (unfold move_cursor, move_pt, cx in *; cbn [cpt px]; lia). destruct c as [[x y] h]. reflexivity. }
  assert (X1 : cx (move_cursor d 0 c) = cx c + d) by reflexivity.
  assert (Y1 : cy (move_cursor d 0 c) = cy c) by (unfold move_cursor, move_pt, cy; cbn [cpt py]; lia).
  rewrite C0, C1, X1.
  destruct (N.leb_spec (px (cmax clip)) (cx c + w + 3)) as [B|B].
  { set (c1 := break_line F clip c). intros E. exfalso. pose proof (break_lower F clip c) as H1. fold c1 in H1.
    destruct (_ <? _); [destruct known|]; cbn [snd] in E; [lia| |].
    - pose proof (le_lower _ _ (layout_le F clip st n c1 rest)). lia.
    - pose proof (le_lower _ _ (layout_le F clip st n (after F gs off c1) rest)) as H2.
      destruct (layout n F clip st (after F gs off c1) rest) as [ps c']. cbn [snd] in *.
      change (cy (after F gs off c1)) with (cy c1) in H2. lia. }
  replace (py (cmax clip) <? p_y (placed_at F gs off c)) with false by (unfold placed_at; cbn [p_y]; lia).
  assert (A : after F gs off (move_cursor d 0 c) = move_cursor d 0 (after F gs off c)).
  { unfold move_cursor, move_pt, after, cx, cy; cbn [cpt px py line_height]; f_equal; f_equal; lia. }
  specialize (IH (after F gs off c) rest).
  assert (AX : cx (after F gs off c) = cx c + w + 3) by reflexivity.
  assert (AY : cy (after F gs off c) = cy c) by reflexivity.
  rewrite AX, AY in IH. specialize (IH ltac:(lia) Hb).
  pose proof (layout_le F clip st n (after F gs off c) rest) as Hle.
  destruct (layout n F clip st (after F gs off c) rest) as [ps c'] eqn:EL. cbn [fst snd] in *. intros E.
  pose proof (le_line _ _ Hle ltac:(rewrite E, AY; reflexivity)) as Hx. rewrite AX in Hx.
  destruct (IH E) as [I1 I2]. split.
  - intros S. replace (px (cmax clip) <=? cx c + d + w + 3) with false by lia.
    replace (py (cmax clip) <? p_y (placed_at F gs off (move_cursor d 0 c))) with false
      by (unfold placed_at; cbn [p_y]; rewrite Y1; lia).
    rewrite A, (I1 S). cbn [map]. f_equal. f_equal.
    unfold placed_at, move_placed, move_cursor, move_pt, cx, cy. cbn [cpt px py p_set p_off p_x p_y]. f_equal; lia.
  - intros S _. destruct (N.leb_spec (px (cmax clip)) (cx c + d + w + 3)) as [L|L].
    + pose proof (break_lower F clip (move_cursor d 0 c)) as H1. rewrite Y1 in H1. set (c2 := break_line F clip (move_cursor d 0 c)) in *.
      destruct (_ <? _); [destruct known|]; cbn [snd]; [lia| |].
      * pose proof (le_lower _ _ (layout_le F clip st n c2 rest)). lia.
      * pose proof (le_lower _ _ (layout_le F clip st n (after F gs off c2) rest)) as H2.
        destruct (layout n F clip st (after F gs off c2) rest) as [ps2 c2']. cbn [snd] in *.
        change (cy (after F gs off c2)) with (cy c2) in H2. lia.
    + replace (py (cmax clip) <? p_y (placed_at F gs off (move_cursor d 0 c))) with false
        by (unfold placed_at; cbn [p_y]; rewrite Y1; lia).
      rewrite A. specialize (I2 S ltac:(lia)).
      destruct (layout n F clip st (move_cursor d 0 (after F gs off c)) rest) as [ps2 c2']. cbn [snd] in *. exact I2.
Qed.

Lemma ink_right F clip p d x y : ink F clip (move_placed d 0 p) (x + d) y = ink F clip p x y.
Proof.
  unfold ink, in_rect, move_placed. cbn [p_set p_off p_x p_y].
  replace (x + d - (p_x p + d)) with (x - p_x p) by lia. rewrite N.add_0_r. f_equal. lia.
Qed.
Lemma inked_right F clip ps d x y : inked F clip (map (move_placed d 0) ps) (x + d) y = inked F clip ps x y.
Proof. induction ps as [|p ps IH]; [reflexivity|]. cbn [map inked]. rewrite ink_right, IH. reflexivity. Qed.
Lemma inked_before F clip ps d x y : x < d -> inked F clip (map (move_placed d 0) ps) x y = false.
Proof.
  intros H. induction ps as [|p ps IH]; [reflexivity|]. cbn [map inked]. rewrite IH. unfold ink, in_rect, move_placed. cbn [p_x].
  replace (p_x p + d <=? x) with false by lia. reflexivity.
Qed.

Lemma paint_align m1 m2 F fb1 fb2 clip c st s d fb1' c1 :
  cfg_ok m1 -> cfg_ok m2 -> fontset_ok F -> is_frbuf fb1 -> is_frbuf fb2 -> paintable clip -> 36 <= clip_width clip ->
  cursor_fits m1 F c s -> cursor_fits m2 F (move_cursor d 0 c) s ->
  px (cmin clip) <= cx c -> cy c + tallest F <= py (cmax clip) ->
  paint_str m1 F fb1 clip c st s = Ret (fb1', c1) -> cy c1 = cy c ->
  exists fb2' c2,
    paint_str m2 F fb2 clip (move_cursor d 0 c) st s = Ret (fb2', c2) /\
    (cx c1 + d < px (cmax clip) -> c2 = move_cursor d 0 c1 /\
      (forall x y, x + d < STORED_WIDTH -> y < LINES ->
        xorb (pixel fb2' (x + d) y) (pixel fb2 (x + d) y) = xorb (pixel fb1' x y) (pixel fb1 x y)) /\
      (forall x y, x < d -> x < STORED_WIDTH -> y < LINES -> pixel fb2' x y = pixel fb2 x y)) /\
    (px (cmax clip) <= cx c1 + d -> cx c < cx c1 -> cy c < cy c2).
Proof.
  intros H1 H2 HF B1 B2 P W C1 C2 Hl Hb E1 Ey.
  pose proof (paint_refines m1 F fb1 clip c st s H1 HF B1 P W C1) as R1.
  pose proof (paint_refines m2 F fb2 clip _ st s H2 HF B2 P W C2) as R2.
  pose proof (layout_align F clip st d HF (N.to_nat (str_len s)) c s Hl Hb) as L.
  destruct (layout _ F clip st c s) as [ps c1']. destruct R1 as (q & Q & _ & D1). rewrite E1 in Q. injection Q as <- <-.
  cbn [fst snd] in L. destruct (L Ey) as [L1 L2].
  destruct (layout _ F clip st (move_cursor d 0 c) s) as [ps2 c2]. destruct R2 as (fb2' & E2 & _ & D2). cbn [snd] in L2.
  exists fb2', c2. split; [exact E2|]. split; [|exact L2]. intros S. specialize (L1 S). injection L1 as -> ->.
  split; [reflexivity|]. split.
  - intros x y Hx Hy. rewrite (D2 _ _ Hx Hy), (D1 x y ltac:(lia) Hy), inked_right.
    destruct (pixel fb1 _ _), (pixel fb2 _ _), (inked _ _ _ _ _); reflexivity.
  - intros x y Hd Hx Hy. rewrite (D2 _ _ Hx Hy), inked_before by exact Hd. apply xorb_false_r.
Qed.
