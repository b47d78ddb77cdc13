(** * Painting into clips of any width *)
From Coq Require Import ZArith.
From Verif Require Import PrimFacts Str Geom FontDefs Blit Spec FbFacts PaintRow PaintProofs LayoutProofs SpecNarrow SpecPaint.

Lemma layout_tries_any F clip st n c s : layout_tries n F clip st c s = layout_any F clip st n c s.
Proof.
  revert c s; induction n as [|n IH]; intros c s; [reflexivity|].
  cbn [layout_tries layout_any]. destruct s as [|ch t]; [reflexivity|].
  destruct (ch =? 10); [apply IH|].
  destruct (choose F st (ch :: t)) as [[[gs off] rest] known]. cbv zeta.
  destruct (_ <? _); [|rewrite IH; reflexivity]. rewrite IH. reflexivity.
Qed.

Lemma lin_ink_over F clip p x y :
  gl_w (F (p_set p)) (p_off p) <= 32 -> p_x p <= 352 -> x < 352 ->
  lin_ink F clip p (y * 352 + x) = ink_over F clip p x y.
Proof.
  intros Hw Hpx Hx. unfold lin_ink, ink_over, ink, in_rect, STORED_WIDTH. cbv zeta.
  set (w := gl_w (F (p_set p)) (p_off p)) in *. set (h := gl_h (F (p_set p)) (p_off p)).
  destruct (N.leb_spec (p_x p) x) as [H1|H1].
  - replace ((y * 352 + x - p_x p) mod 352) with (x - p_x p) by lia.
    replace ((y * 352 + x - p_x p) / 352) with y by lia.
    replace (x + 352 <? p_x p + w) with false by lia. rewrite !andb_false_r; cbn [andb]; rewrite ?andb_false_r, orb_false_r.
    destruct (N.leb_spec (p_y p) y) as [H2|H2].
    + replace (p_y p + (y - p_y p)) with y by lia.
      rewrite !andb_assoc. f_equal. lia.
    + replace (p_y p * 352 + p_x p <=? y * 352 + x) with false by lia.
      rewrite !andb_false_r. reflexivity.
  - cbn [andb orb].
    destruct (N.ltb_spec 0 y) as [H0|H0]; cbn [andb].
    + replace ((y * 352 + x - p_x p) mod 352) with (x + 352 - p_x p) by lia.
      replace ((y * 352 + x - p_x p) / 352) with (y - 1) by lia.
      replace (p_x p <=? x + 352) with true by lia. cbn [andb].
      destruct (N.leb_spec (p_y p) (y - 1)) as [H2|H2].
      * replace (p_y p + (y - 1 - p_y p)) with (y - 1) by lia.
        rewrite !andb_assoc. f_equal. lia.
      * replace (p_y p * 352 + p_x p <=? y * 352 + x) with false by lia. rewrite ?andb_false_r. reflexivity.
    + replace (p_y p * 352 + p_x p <=? y * 352 + x) with false by lia. rewrite ?andb_false_r. reflexivity.
Qed.

Lemma lin_inked_over F clip ps x y : paintable clip ->
  Forall (placed_ok F clip) ps -> x < 352 -> lin_inked F clip ps (y * 352 + x) = inked_over F clip ps x y.
Proof.
  intros Hclip H Hx. induction H as [|p t Hp Ht IH]; [reflexivity|].
  cbn [lin_inked inked_over]. rewrite IH. f_equal. destruct Hp as (Hg & Hpx & _). pose proof (go_w _ _ Hg).
  destruct Hclip as [Hc1 Hc2]. unfold WIDTH in *. apply lin_ink_over; lia.
Qed.

Lemma paint_exact m F fb clip c st s :
  cfg_ok m -> fontset_ok F -> is_frbuf fb -> paintable clip -> cursor_fits m F c s ->
  let '(ps, c') := layout_tries (N.to_nat (str_len s)) F clip st c s in
  if existsb (overruns F clip) ps then paint_str m F fb clip c st s = Panic
  else exists fb', paint_str m F fb clip c st s = Ret (fb', c') /\ is_frbuf fb' /\
    forall x y, x < STORED_WIDTH -> y < LINES ->
      pixel fb' x y = xorb (pixel fb x y) (inked_over F clip ps x y).
Proof.
  intros Hm HF Hfb Hclip Hc.
  pose proof (paint_str_all m F clip st Hm HF Hclip fb c s Hfb Hc) as H.
  pose proof (layout_any_placed F clip st HF (N.to_nat (str_len s)) c s) as Hp.
  rewrite layout_tries_any. destruct (layout_any F clip st _ c s) as [ps c']. cbn [fst snd] in *.
  destruct (existsb (overruns F clip) ps); [exact H|]. destruct H as (fb' & E & Hfb' & Hb).
  exists fb'. split; [exact E|split; [assumption|]].
  intros x y Hx' Hy'. rewrite !pixel_lbit, Hb.
  rewrite (lin_inked_over F clip ps x y Hclip) by (assumption || exact Hx'). reflexivity.
Qed.

Lemma paint_panics_iff m F fb clip c st s :
  cfg_ok m -> fontset_ok F -> is_frbuf fb -> paintable clip -> cursor_fits m F c s ->
  (paint_str m F fb clip c st s = Panic <->
   exists p, In p (fst (layout_tries (N.to_nat (str_len s)) F clip st c s)) /\ overruns F clip p = true).
Proof.
  intros Hm HF Hfb Hclip Hc. pose proof (paint_exact m F fb clip c st s Hm HF Hfb Hclip Hc) as H.
  destruct (layout_tries _ F clip st c s) as [ps c']. cbn [fst].
  destruct (existsb (overruns F clip) ps) eqn:E.
  - split; [|intros _; exact H]. intros _. apply existsb_exists in E. exact E.
  - destruct H as (fb' & -> & _). split; [discriminate|]. intros P. apply existsb_exists in P. congruence.
Qed.

Lemma tries_fit n F clip st c s : fontset_ok F -> paintable clip -> clip_fits clip ->
  existsb (overruns F clip) (fst (layout_tries n F clip st c s)) = false.
Proof. intros HF Hclip Hfit. rewrite layout_tries_any. exact (layout_any_fits F clip st HF Hclip Hfit n c s). Qed.

Lemma paint_any m F fb clip c st s :
  cfg_ok m -> fontset_ok F -> is_frbuf fb -> paintable clip -> clip_fits clip -> cursor_fits m F c s ->
  let '(ps, c') := layout_tries (N.to_nat (str_len s)) F clip st c s in
  exists fb', paint_str m F fb clip c st s = Ret (fb', c') /\ is_frbuf fb' /\
    forall x y, x < STORED_WIDTH -> y < LINES ->
      pixel fb' x y = xorb (pixel fb x y) (inked_over F clip ps x y).
Proof.
  intros Hm HF Hfb Hclip Hfit Hc. pose proof (paint_exact m F fb clip c st s Hm HF Hfb Hclip Hc) as H.
  pose proof (tries_fit (N.to_nat (str_len s)) F clip st c s HF Hclip Hfit) as Hf.
  destruct (layout_tries _ F clip st c s) as [ps c']. cbn [fst] in Hf. rewrite Hf in H. exact H.
Qed.

Lemma inked_over_inked F clip ps x y : px (cmin clip) < 320 ->
  Forall (placed_ok F clip) ps -> paintable clip -> x < 352 -> inked_over F clip ps x y = inked F clip ps x y.
Proof.
  intros H Hp Hclip Hx. rewrite <- (lin_inked_over F clip ps x y Hclip Hp Hx).
  apply (lin_inked_inked F clip); (assumption || lia).
Qed.

Lemma paint_narrow m F fb clip c st s :
  cfg_ok m -> fontset_ok F -> is_frbuf fb -> paintable clip -> px (cmin clip) < 320 -> cursor_fits m F c s ->
  let '(ps, c') := layout_tries (N.to_nat (str_len s)) F clip st c s in
  exists fb', paint_str m F fb clip c st s = Ret (fb', c') /\ is_frbuf fb' /\
    forall x y, x < STORED_WIDTH -> y < LINES ->
      pixel fb' x y = xorb (pixel fb x y) (inked F clip ps x y).
Proof.
  intros Hm HF Hfb Hclip Hx Hc.
  pose proof (paint_any m F fb clip c st s Hm HF Hfb Hclip (or_introl Hx) Hc) as H.
  pose proof (layout_any_placed F clip st HF (N.to_nat (str_len s)) c s) as Hp.
  rewrite <- layout_tries_any in Hp.
  destruct (layout_tries _ F clip st c s) as [ps c']. destruct H as (fb' & E & Hfb' & P). cbn [fst] in Hp.
  exists fb'. split; [exact E|]. split; [exact Hfb'|]. intros x y Hx' Hy. rewrite (P x y Hx' Hy).
  rewrite (inked_over_inked F clip ps x y Hx Hp Hclip Hx'). reflexivity.
Qed.

(** With 36 columns there is nothing to add *)
Lemma tries_layout n F clip st c s : fontset_ok F -> paintable clip -> 36 <= clip_width clip ->
  layout_tries n F clip st c s = layout n F clip st c s.
Proof. intros HF Hclip Hw. rewrite layout_tries_any. exact (layout_any_layout F clip st HF Hclip n c s Hw). Qed.

(** ** Glyphs, disjoint and in order *)
Lemma paint_any_disjoint n F clip st c s : fontset_ok F ->
  ForallOrdPairs (box_after F) (fst (layout_tries n F clip st c s)).
Proof. intros HF. rewrite layout_tries_any. exact (layout_disjoint F clip st HF n c s). Qed.

(** ** A glyph wider than the clip, below it *)
Lemma seek_wide F clip c w : clip_width clip <= w + 3 -> seek F clip c w = break_line F clip c.
Proof.
  intros H. unfold seek, clip_width in *. csimpl.
  replace (px (cmax clip) <=? N.max (cx c) (px (cmin clip)) + w + 3) with true by lia. reflexivity.
Qed.

Lemma iter_comm {A} (f : A -> A) n a : Nat.iter n f (f a) = Nat.iter (S n) f a.
Proof. induction n as [|n IH]; [reflexivity|]. cbn [Nat.iter nat_rect] in *. f_equal. exact IH. Qed.

Lemma tries_scroll F clip st gs off rest n s : s <> [] -> nth_error s 0 <> Some 10 ->
  choose F st s = (gs, off, rest, true) -> clip_width clip <= gl_w (F gs) off + 3 ->
  forall c, py (cmax clip) < cy (break_line F clip c) + gl_y (F gs) off ->
  layout_tries n F clip st c s = ([], Nat.iter n (break_line F clip) c).
Proof.
  intros Hs Hnl Hch Hw. destruct s as [|ch t]; [congruence|].
  induction n as [|n IH]; intros c Hb; [reflexivity|].
  cbn [layout_tries]. destruct (N.eqb_spec ch 10) as [->|]; [exfalso; apply Hnl; reflexivity|].
  rewrite Hch. cbv zeta. rewrite (seek_wide F clip c _ Hw). unfold placed_at; cbn [p_y].
  destruct (N.ltb_spec (py (cmax clip)) (cy (break_line F clip c) + gl_y (F gs) off)); [|lia].
  rewrite IH by (unfold break_line in *; csimpl; lia). rewrite iter_comm. reflexivity.
Qed.

Lemma paint_scrolls m F fb clip c st s gs off rest :
  cfg_ok m -> fontset_ok F -> is_frbuf fb -> paintable clip -> clip_fits clip -> cursor_fits m F c s ->
  s <> [] -> nth_error s 0 <> Some 10 ->
  choose F st s = (gs, off, rest, true) -> clip_width clip <= gl_w (F gs) off + 3 ->
  py (cmax clip) < cy (break_line F clip c) + gl_y (F gs) off ->
  paint_str m F fb clip c st s = Ret (fb, Nat.iter (N.to_nat (str_len s)) (break_line F clip) c).
Proof.
  intros Hm HF Hfb Hclip Hfit Hc Hs Hnl Hch Hw Hb.
  destruct (paint_str_any m F clip st Hm HF Hclip Hfit fb c s Hfb Hc) as (fb' & E & Hfb' & B).
  rewrite <- layout_tries_any in E, B.
  rewrite (tries_scroll F clip st gs off rest (N.to_nat (str_len s)) s Hs Hnl Hch Hw c Hb) in E, B.
  cbn [fst snd lin_inked] in *. rewrite E. f_equal. f_equal.
  apply (pixel_ext fb' fb Hfb' Hfb). intros x y Hx Hy. rewrite !pixel_lbit, B, xorb_false_r. reflexivity.
Qed.
