(** * Clips that end further left: proofs *)
From Coq Require Import ZArith.
From Verif Require Import PrimFacts FbFacts Geom Str FontDefs Blit Spec SpecPaint SpecCrop SpecReach LayoutProofs ClearProofs CropProofs.

Lemma break_narrow F clip r c : break_line F (reaching r clip) c = break_line F clip c.
Proof. reflexivity. Qed.

Lemma layout_narrow F clip st r : r <= px (cmax clip) -> forall n c s, known_text F st s ->
  exists more,
    fst (layout n F (reaching r clip) st c s) = before_column F r (fst (layout n F clip st c s)) ++ more /\
    (Forall (cell_left_of F r) (fst (layout n F clip st c s)) -> more = [] /\
      (snd (layout n F (reaching r clip) st c s) = snd (layout n F clip st c s) \/
       cy (snd (layout n F clip st c s)) < cy (snd (layout n F (reaching r clip) st c s)))).
Proof.
  intros Hr. induction n as [|n IH]; intros c s Hs.
  { exists []. split; [reflexivity|]. intros _. split; [|left]; reflexivity. }
  destruct Hs as [|t Ht|ch t gs off rest Hne Ech Hk].
  - exists []. split; [reflexivity|]. intros _. split; [|left]; reflexivity.
  - cbn [layout N.eqb Pos.eqb]. rewrite break_narrow. apply IH, Ht.
  - cbn [layout]. apply N.eqb_neq in Hne. rewrite Hne, Ech. cbv zeta.
    set (w := gl_w (F gs) off). set (c0 := Cursor (Pt (N.max (cx c) (px (cmin clip))) (cy c)) (line_height c)).
    change (py (cmax (reaching r clip))) with (py (cmax clip)).
    assert (Same : forall c1, exists more,
      fst (if py (cmax clip) <? p_y (placed_at F gs off c1) then ([], c1)
           else let '(ps, c') := layout n F (reaching r clip) st (after F gs off c1) rest in (placed_at F gs off c1 :: ps, c')) =
      before_column F r (fst (if py (cmax clip) <? p_y (placed_at F gs off c1) then ([], c1)
           else let '(ps, c') := layout n F clip st (after F gs off c1) rest in (placed_at F gs off c1 :: ps, c'))) ++ more /\
      (Forall (cell_left_of F r) (fst (if py (cmax clip) <? p_y (placed_at F gs off c1) then ([], c1)
           else let '(ps, c') := layout n F clip st (after F gs off c1) rest in (placed_at F gs off c1 :: ps, c'))) -> more = [] /\
       (snd (if py (cmax clip) <? p_y (placed_at F gs off c1) then ([], c1)
           else let '(ps, c') := layout n F (reaching r clip) st (after F gs off c1) rest in (placed_at F gs off c1 :: ps, c')) =
        snd (if py (cmax clip) <? p_y (placed_at F gs off c1) then ([], c1)
           else let '(ps, c') := layout n F clip st (after F gs off c1) rest in (placed_at F gs off c1 :: ps, c')) \/
        cy (snd (if py (cmax clip) <? p_y (placed_at F gs off c1) then ([], c1)
           else let '(ps, c') := layout n F clip st (after F gs off c1) rest in (placed_at F gs off c1 :: ps, c'))) <
        cy (snd (if py (cmax clip) <? p_y (placed_at F gs off c1) then ([], c1)
           else let '(ps, c') := layout n F (reaching r clip) st (after F gs off c1) rest in (placed_at F gs off c1 :: ps, c')))))).
    { intros c1. destruct (_ <? _); cbn [fst snd].
      - exists []. split; [reflexivity|]. intros _. split; [|left]; reflexivity.
      - destruct (IH (after F gs off c1) rest Hk) as (more & I1 & I2).
        destruct (layout n F (reaching r clip) st (after F gs off c1) rest) as [ps2 e2].
        destruct (layout n F clip st (after F gs off c1) rest) as [ps1 e1]. cbn [fst snd] in *.
        cbn [before_column]. destruct (N.ltb_spec (p_x (placed_at F gs off c1) + gl_w (F (p_set (placed_at F gs off c1))) (p_off (placed_at F gs off c1)) + 2) r) as [L|L].
        + exists more. split; [rewrite I1; reflexivity|]. intros A. apply I2. exact (Forall_inv_tail A).
        + exists (placed_at F gs off c1 :: ps2). split; [reflexivity|]. intros A. apply Forall_inv in A.
          unfold cell_left_of in A. lia. }
    unfold seek. fold c0. change (cmin (reaching r clip)) with (cmin clip). fold c0. change (px (cmax (reaching r clip))) with r.
    rewrite break_narrow.
    destruct (N.leb_spec (px (cmax clip)) (cx c0 + w + 3)) as [W|W].
    + replace (r <=? cx c0 + w + 3) with true by lia. apply Same.
    + destruct (N.leb_spec r (cx c0 + w + 3)) as [V|V]; [|apply Same].
      set (c1 := break_line F clip c0).
      assert (Y : cy c0 < cy c1) by (unfold c1, break_line, cy; cbn [cpt py]; lia).
      assert (P : p_y (placed_at F gs off c0) < p_y (placed_at F gs off c1)) by (unfold placed_at; cbn [p_y]; lia).
      destruct (N.ltb_spec (py (cmax clip)) (p_y (placed_at F gs off c0))) as [D|D].
      * replace (py (cmax clip) <? p_y (placed_at F gs off c1)) with true by lia. cbn [fst snd].
        exists []. split; [reflexivity|]. intros _. split; [reflexivity|right; exact Y].
      * destruct (layout n F clip st (after F gs off c0) rest) as [ps1 e1]. cbn [fst snd before_column].
        assert (Nf : r <= p_x (placed_at F gs off c0) + gl_w (F (p_set (placed_at F gs off c0))) (p_off (placed_at F gs off c0)) + 2).
        { unfold placed_at; cbn [p_x p_set p_off]. fold w. lia. }
        destruct (N.ltb_spec (p_x (placed_at F gs off c0) + gl_w (F (p_set (placed_at F gs off c0))) (p_off (placed_at F gs off c0)) + 2) r) as [L|_]; [lia|].
        eexists. split; [reflexivity|]. intros A. apply Forall_inv in A. unfold cell_left_of in A. lia.
Qed.

Lemma inked_narrow F clip r ps x y : inked F (reaching r clip) ps x y = inked F clip ps x y.
Proof. induction ps as [|p t IH]; [reflexivity|]. cbn [inked]. rewrite IH. reflexivity. Qed.
Lemma before_column_all F r ps : Forall (cell_left_of F r) ps -> before_column F r ps = ps.
Proof.
  induction 1 as [|p t Hp _ IH]; [reflexivity|]. cbn [before_column]. unfold cell_left_of in Hp.
  replace (_ <? r) with true by lia. rewrite IH. reflexivity.
Qed.

Lemma paint_narrow m F fb clip c st s r :
  cfg_ok m -> fontset_ok F -> is_frbuf fb -> paintable clip -> cursor_fits m F c s ->
  px (cmin clip) + 36 <= r -> r <= px (cmax clip) -> known_text F st s ->
  exists ps more fb1 c1 fb2 c2,
    paint_str m F fb clip c st s = Ret (fb1, c1) /\
    (forall x y, x < STORED_WIDTH -> y < LINES -> pixel fb1 x y = xorb (pixel fb x y) (inked F clip ps x y)) /\
    paint_str m F fb (reaching r clip) c st s = Ret (fb2, c2) /\
    (forall x y, x < STORED_WIDTH -> y < LINES ->
      pixel fb2 x y = xorb (pixel fb x y) (inked F clip (before_column F r ps ++ more) x y)) /\
    (Forall (cell_left_of F r) ps -> fb2 = fb1 /\ (c2 = c1 \/ cy c1 < cy c2)).
Proof.
  intros Hm HF Hfb Hclip Hc Hl Hr Hs.
  assert (Hclip' : paintable (reaching r clip)).
  { destruct Hclip as [H1 H2]. split; [|exact H2]. unfold reaching; cbn [cmin cmax px]. lia. }
  assert (Hw : 36 <= clip_width clip) by (unfold clip_width; lia).
  assert (Hw' : 36 <= clip_width (reaching r clip)) by (unfold clip_width, reaching; cbn [cmin cmax px]; lia).
  pose proof (paint_refines m F fb clip c st s Hm HF Hfb Hclip Hw Hc) as R1.
  pose proof (paint_refines m F fb (reaching r clip) c st s Hm HF Hfb Hclip' Hw' Hc) as R2.
  destruct (layout_narrow F clip st r Hr (N.to_nat (str_len s)) c s Hs) as (more & L1 & L2).
  destruct (layout _ F clip st c s) as [ps c1]. destruct (layout _ F (reaching r clip) st c s) as [ps' c2].
  cbn [fst snd] in *. subst ps'.
  destruct R1 as (fb1 & E1 & K1 & D1). destruct R2 as (fb2 & E2 & K2 & D2).
  exists ps, more, fb1, c1, fb2, c2. repeat (split; [assumption|]). split.
  { intros x y Hx Hy. rewrite (D2 x y Hx Hy), inked_narrow. reflexivity. }
  intros A. destruct (L2 A) as [-> L3]. split; [|exact L3].
  apply pixel_ext; [assumption..|]. intros x y Hx Hy.
  rewrite (D2 x y Hx Hy), (D1 x y Hx Hy), app_nil_r, (before_column_all F r ps A), inked_narrow. reflexivity.
Qed.

Lemma inked_left F clip ps k x y : Forall (fun p => p_x p + gl_w (F (p_set p)) (p_off p) <= k) ps -> k <= x -> inked F clip ps x y = false.
Proof.
  intros H Hx. induction H as [|p t Hp _ IH]; [reflexivity|]. cbn [inked]. rewrite IH. unfold ink, in_rect.
  replace (x <? p_x p + gl_w (F (p_set p)) (p_off p)) with false by lia. rewrite ?andb_false_r. reflexivity.
Qed.
