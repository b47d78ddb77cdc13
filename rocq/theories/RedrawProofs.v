(** * Clearing and painting: proofs *)
From Coq Require Import ZArith.
From Verif Require Import PrimFacts FbFacts Geom Str FontDefs Blit Spec SpecPaint SpecRedraw ClearProofs LayoutProofs.

Section Redraw.
  Context (m : cfg) (F : fontset) (clip : cliprect) (Hm : cfg_ok m) (HF : fontset_ok F) (Hs : on_screen clip) (Hw : 36 <= clip_width clip).

  Lemma two_words : px (cmin clip) / 32 < px (cmax clip) / 32.
  Proof.
    unfold clip_width in Hw. assert ((px (cmin clip) + 1 * 32) / 32 <= px (cmax clip) / 32) as H by (apply N.div_le_mono; lia).
    rewrite N.div_add in H by lia. lia.
  Qed.

  Lemma redraw_panics c st s fb : is_frbuf fb -> ovf m = true -> px (cmax clip) mod 32 = 0 -> redraw m F clip c st s fb = Panic.
  Proof.
    intros Hfb Ho Hr. unfold redraw. rewrite (proj2 (clear_cases m fb clip Hm Hfb)); [reflexivity|].
    repeat (split; [assumption|]). exact two_words.
  Qed.

  Lemma redraw_shows c st s fb : is_frbuf fb -> ~ (ovf m = true /\ px (cmax clip) mod 32 = 0) -> cursor_fits m F c s ->
    exists fb', redraw m F clip c st s fb = Ret (fb', snd (layout (N.to_nat (str_len s)) F clip st c s)) /\ is_frbuf fb' /\
      forall x y, x < STORED_WIDTH -> y < LINES -> pixel fb' x y =
        if in_clip clip x y then negb (inked F clip (fst (layout (N.to_nat (str_len s)) F clip st c s)) x y)
        else pixel fb x y || beside clip x y.
  Proof.
    intros Hfb Ho Hc. unfold redraw.
    destruct (clear_region m fb clip) as [fb1|] eqn:E.
    2:{ exfalso. apply Ho. apply (clear_cases m fb clip Hm Hfb) in E as (_ & E1 & E2 & _). split; assumption. }
    destruct (clear_returns m fb clip Hm Hfb Hs fb1 E) as [B1 D1].
    assert (P : paintable clip) by (destruct Hs as [? [? ?]]; split; assumption).
    pose proof (paint_refines m F fb1 clip c st s Hm HF B1 P Hw Hc) as R.
    assert (X : forall fb' c', paint_str m F fb1 clip c st s = Ret (fb', c') ->
      forall x y, x < STORED_WIDTH -> y < LINES -> in_clip clip x y = false -> pixel fb' x y = pixel fb1 x y).
    { intros fb' c' E'. apply (paint_contained m F fb1 clip c st s fb' c' Hm HF B1 ltac:(lia) Hc E'). }
    destruct (layout _ F clip st c s) as [ps c']. cbn [fst snd]. destruct R as (fb' & E2 & B2 & D2).
    exists fb'. cbn [bind]. split; [exact E2|]. split; [exact B2|]. intros x y Hx Hy.
    unfold STORED_WIDTH, LINES in Hx, Hy. specialize (D1 x y Hx Hy). pose proof two_words as Tw.
    replace (clear_right (px (cmin clip)) (px (cmax clip))) with (if px (cmax clip) mod 32 =? 0 then px (cmax clip) + 32 else px (cmax clip)) in D1
      by (unfold clear_right; replace (px (cmin clip) / 32 =? px (cmax clip) / 32) with false by (symmetry; apply N.eqb_neq; lia); reflexivity).
    destruct (in_clip clip x y) eqn:I.
    - rewrite (D2 x y Hx Hy), D1. unfold in_clip in I. unfold in_rect in I |- *.
      replace ((px (cmin clip) <=? x) && (x <? (if px (cmax clip) mod 32 =? 0 then px (cmax clip) + 32 else px (cmax clip))) &&
               (py (cmin clip) <=? y) && (y <? py (cmax clip))) with true by (destruct (px (cmax clip) mod 32 =? 0); lia).
      rewrite orb_true_r. apply xorb_true_l.
    - rewrite (X fb' c' E2 x y Hx Hy I), D1. f_equal. unfold in_clip, in_rect in I. unfold beside, in_rect.
      destruct Hs as [Hs1 Hs2]. destruct (px (cmax clip) mod 32 =? 0); cbn [andb]; lia.
  Qed.

  Lemma redraw_again c1 st1 s1 c2 st2 s2 fb fb1 c' : is_frbuf fb -> cursor_fits m F c1 s1 -> cursor_fits m F c2 s2 ->
    redraw m F clip c1 st1 s1 fb = Ret (fb1, c') -> redraw m F clip c2 st2 s2 fb1 = redraw m F clip c2 st2 s2 fb.
  Proof.
    intros Hfb H1 H2 E.
    assert (Ho : ~ (ovf m = true /\ px (cmax clip) mod 32 = 0)).
    { intros [O1 O2]. rewrite (redraw_panics c1 st1 s1 fb Hfb O1 O2) in E. discriminate. }
    destruct (redraw_shows c1 st1 s1 fb Hfb Ho H1) as (fb1' & E1 & B1 & D1). rewrite E1 in E. injection E as -> _.
    destruct (redraw_shows c2 st2 s2 fb1 B1 Ho H2) as (fa & Ea & Ba & Da).
    destruct (redraw_shows c2 st2 s2 fb Hfb Ho H2) as (fc & Ec & Bc & Dc).
    rewrite Ea, Ec. f_equal. f_equal. apply pixel_ext; [exact Ba|exact Bc|]. intros x y Hx Hy. rewrite (Da x y Hx Hy), (Dc x y Hx Hy).
    specialize (D1 x y Hx Hy). destruct (in_clip clip x y); [reflexivity|]. rewrite D1, <- orb_assoc, orb_diag. reflexivity.
  Qed.
End Redraw.
