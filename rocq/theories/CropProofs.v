(** * Clips that end higher up: proofs *)
From Coq Require Import ZArith.
From Verif Require Import PrimFacts FbFacts Geom Str FontDefs Blit Spec SpecPaint SpecCrop LayoutProofs.

Lemma seek_crop F clip b c w : seek F (ending_at b clip) c w = seek F clip c w.
Proof. reflexivity. Qed.
Lemma break_crop F clip b c : break_line F (ending_at b clip) c = break_line F clip c.
Proof. reflexivity. Qed.

Lemma layout_lower F clip st : forall n c s, Forall (fun p => cy c <= p_y p) (fst (layout n F clip st c s)).
Proof.
  assert (B : forall c, cy c <= cy (break_line F clip c)) by (intros c; unfold break_line, cy; cbn [cpt py]; lia).
  assert (S : forall c w, cy c <= cy (seek F clip c w)).
  { intros c w. unfold seek. destruct (_ <=? _); [|apply N.le_refl].
    unfold break_line, cy. cbn [cpt py]. lia. }
  assert (W : forall a b ps, a <= b -> Forall (fun p => b <= p_y p) ps -> Forall (fun p => a <= p_y p) ps)
    by (intros a b ps H; apply Forall_impl; intros p Hp; lia).
  induction n as [|n IH]; intros c s; [constructor|]. cbn [layout]. destruct s as [|ch t]; [constructor|].
  destruct (ch =? 10); [apply (W _ _ _ (B c)), IH|].
  destruct (choose F st (ch :: t)) as [[[gs off] rest] known]. cbv zeta. set (w := gl_w (F gs) off).
  pose proof (S c w) as Hs. set (c1 := seek F clip c w) in *.
  destruct (_ <? _).
  - destruct known; [constructor|]. apply (W _ _ _ Hs), IH.
  - specialize (IH (after F gs off c1) rest). destruct (layout n F clip st (after F gs off c1) rest) as [ps c']. cbn [fst] in *.
    change (cy (after F gs off c1)) with (cy c1) in IH.
    constructor; [unfold placed_at; cbn [p_y]; lia|apply (W _ _ _ Hs), IH].
Qed.

(** Of the glyphs for the clip, those in the cropped clip, and the others, which are below its cursor *)
Lemma layout_crop F clip st b : b <= py (cmax clip) -> forall n c s, known_text F st s ->
  fst (layout n F (ending_at b clip) st c s) = before_row b (fst (layout n F clip st c s)) /\
  exists more, fst (layout n F clip st c s) = before_row b (fst (layout n F clip st c s)) ++ more /\
    Forall (fun p => cy (snd (layout n F (ending_at b clip) st c s)) <= p_y p) more.
Proof.
  intros Hb. induction n as [|n IH]; intros c s Hs; [split; [reflexivity|]; exists []; split; [reflexivity|constructor]|].
  destruct Hs as [|t Ht|ch t gs off rest Hne Ech Hr].
  - split; [reflexivity|]; exists []; split; [reflexivity|constructor].
  - cbn [layout N.eqb Pos.eqb]. apply IH, Ht.
  - cbn [layout]. apply N.eqb_neq in Hne. rewrite Hne, Ech. cbv zeta. rewrite seek_crop.
    set (c1 := seek F clip c (gl_w (F gs) off)). change (py (cmax (ending_at b clip))) with b.
    specialize (IH (after F gs off c1) rest Hr).
    pose proof (layout_lower F clip st n (after F gs off c1) rest) as Hl. change (cy (after F gs off c1)) with (cy c1) in Hl.
    destruct (layout n F (ending_at b clip) st (after F gs off c1) rest) as [ps1 e1].
    destruct (layout n F clip st (after F gs off c1) rest) as [ps2 e2]. cbn [fst snd] in *.
    destruct (N.ltb_spec (py (cmax clip)) (p_y (placed_at F gs off c1))) as [L|L].
    + destruct (N.ltb_spec b (p_y (placed_at F gs off c1))) as [L'|L']; [|lia]. cbn [fst snd].
      split; [reflexivity|]; exists []; split; [reflexivity|constructor].
    + cbn [fst before_row]. destruct (N.ltb_spec b (p_y (placed_at F gs off c1))) as [L'|L'].
      * cbn [fst snd]. split; [reflexivity|]. exists (placed_at F gs off c1 :: ps2). split; [reflexivity|].
        constructor; [unfold placed_at; cbn [p_y]; lia|exact Hl].
      * cbn [fst snd]. destruct IH as (I1 & more & I2 & I3). split; [rewrite I1; reflexivity|].
        exists more. split; [rewrite I2 at 1; reflexivity|exact I3].
Qed.

Lemma ink_crop F clip b p x y : y < b -> b <= py (cmax clip) -> ink F (ending_at b clip) p x y = ink F clip p x y.
Proof.
  intros Hy Hb. unfold ink, ending_at. cbn [cmin cmax py]. replace (y <? b) with true by lia.
  replace (y <? py (cmax clip)) with true by lia. reflexivity.
Qed.
Lemma inked_crop F clip b ps x y : y < b -> b <= py (cmax clip) -> inked F (ending_at b clip) ps x y = inked F clip ps x y.
Proof. intros Hy Hb. induction ps as [|p t IH]; [reflexivity|]. cbn [inked]. rewrite IH, (ink_crop F clip b p x y Hy Hb). reflexivity. Qed.
Lemma inked_low F clip ps x y r : y < r -> Forall (fun p => r <= p_y p) ps -> inked F clip ps x y = false.
Proof.
  intros Hy. induction 1 as [|p t Hp _ IH]; [reflexivity|]. cbn [inked]. rewrite IH. unfold ink, in_rect.
  replace (p_y p <=? y) with false by lia. rewrite !andb_false_r. reflexivity.
Qed.
Lemma inked_parts F clip a b x y : inked F clip (a ++ b) x y = xorb (inked F clip a x y) (inked F clip b x y).
Proof. induction a as [|p t IH]; cbn [app inked]; [symmetry; apply xorb_false_l|]. rewrite IH, xorb_assoc. reflexivity. Qed.
Lemma before_all b ps : Forall (fun p => p_y p <= b) ps -> before_row b ps = ps.
Proof. induction 1 as [|p t Hp _ IH]; [reflexivity|]. cbn [before_row]. replace (b <? p_y p) with false by lia. rewrite IH. reflexivity. Qed.

Lemma paint_crop m F fb clip c st s b :
  cfg_ok m -> fontset_ok F -> is_frbuf fb -> paintable clip -> 36 <= clip_width clip -> cursor_fits m F c s ->
  b <= py (cmax clip) -> known_text F st s ->
  exists ps fb1 c1 fb2 c2,
    paint_str m F fb clip c st s = Ret (fb1, c1) /\
    (forall x y, x < STORED_WIDTH -> y < LINES -> pixel fb1 x y = xorb (pixel fb x y) (inked F clip ps x y)) /\
    paint_str m F fb (ending_at b clip) c st s = Ret (fb2, c2) /\
    (forall x y, x < STORED_WIDTH -> y < LINES ->
      pixel fb2 x y = xorb (pixel fb x y) (inked F (ending_at b clip) (before_row b ps) x y)) /\
    (Forall (fun p => p_y p <= b) ps ->
      forall x y, x < STORED_WIDTH -> y < LINES -> pixel fb2 x y = if y <? b then pixel fb1 x y else pixel fb x y) /\
    (forall x y, x < STORED_WIDTH -> y < b -> y < cy c2 -> pixel fb2 x y = pixel fb1 x y).
Proof.
  intros Hm HF Hfb Hclip Hw Hc Hb Hs.
  assert (Hclip' : paintable (ending_at b clip)).
  { destruct Hclip as [H1 H2]. split; [exact H1|]. unfold ending_at; cbn [cmax py]. lia. }
  pose proof (paint_refines m F fb clip c st s Hm HF Hfb Hclip Hw Hc) as R1.
  pose proof (paint_refines m F fb (ending_at b clip) c st s Hm HF Hfb Hclip' Hw Hc) as R2.
  destruct (layout_crop F clip st b Hb (N.to_nat (str_len s)) c s Hs) as (L1 & more & L2 & L3).
  destruct (layout _ F clip st c s) as [ps c1]. destruct (layout _ F (ending_at b clip) st c s) as [ps' c2].
  cbn [fst snd] in *. subst ps'.
  destruct R1 as (fb1 & E1 & _ & D1). destruct R2 as (fb2 & E2 & _ & D2).
  exists ps, fb1, c1, fb2, c2. repeat (split; [assumption|]). split.
  - intros A x y Hx Hy. rewrite (D2 x y Hx Hy), (before_all b ps A). destruct (N.ltb_spec y b) as [Y|Y].
    + rewrite (D1 x y Hx Hy), (inked_crop F clip b ps x y Y Hb). reflexivity.
    + replace (inked F (ending_at b clip) ps x y) with false; [apply xorb_false_r|]. symmetry. clear -Y.
      induction ps as [|p t IH]; [reflexivity|]. cbn [inked]. rewrite IH. unfold ink, ending_at. cbn [cmax py].
      replace (y <? b) with false by lia. rewrite andb_false_r. reflexivity.
  - intros x y Hx Hy Hl. assert (Hy' : y < LINES) by (destruct Hclip as [_ H2]; lia).
    rewrite (D2 x y Hx Hy'), (D1 x y Hx Hy'), (inked_crop F clip b _ x y Hy Hb).
    rewrite L2 at 2. rewrite inked_parts, (inked_low F clip more x y _ Hl L3), xorb_false_r. reflexivity.
Qed.
