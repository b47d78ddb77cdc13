(** * Consequences of the refinement: layout, containment, cursor movement *)
From Coq Require Import ZArith.
From Verif Require Export PaintProofs.

Ltac csimpl := cbn [cx cy cpt px py line_height p_x p_y p_set p_off fst snd] in *.

(** ** From pixels in one line to pixels on the screen *)
Lemma lin_ink_ink F clip p x y :
  p_x p + gl_w (F (p_set p)) (p_off p) <= 352 -> x < 352 ->
  lin_ink F clip p (y * 352 + x) = ink F clip p x y.
Proof.
  intros Hw Hx. unfold lin_ink, ink, in_rect. cbv zeta.
  set (w := gl_w (F (p_set p)) (p_off p)) in *. set (h := gl_h (F (p_set p)) (p_off p)).
  destruct (N.leb_spec (p_x p) x) as [H1|H1].
  - replace ((y * 352 + x - p_x p) mod 352) with (x - p_x p) by lia.
    replace ((y * 352 + x - p_x p) / 352) with y by lia.
    destruct (N.leb_spec (p_y p) y) as [H2|H2].
    + replace (p_y p + (y - p_y p)) with y by lia.
      rewrite !andb_assoc. f_equal. lia.
    + replace (p_y p * 352 + p_x p <=? y * 352 + x) with false by lia.
      simpl. rewrite andb_false_r. reflexivity.
  - simpl.
    destruct (N.leb_spec (p_y p * 352 + p_x p) (y * 352 + x)) as [H2|H2]; [|reflexivity].
    replace ((y * 352 + x - p_x p) mod 352 <? w) with false by lia.
    rewrite !andb_false_r. reflexivity.
Qed.

Lemma seek_bounds F clip c w :
  cx (seek F clip c w) = px (cmin clip) \/
  px (cmin clip) <= cx (seek F clip c w) /\ cx (seek F clip c w) + w + 3 < px (cmax clip).
Proof.
  unfold seek. csimpl.
  match goal with |- context [if ?t then _ else _] => destruct t eqn:E end; [left; reflexivity|].
  right; csimpl; lia.
Qed.

Section Layout.
  Context (F : fontset) (clip : cliprect) (st : glyphstyle).
  Context (HF : fontset_ok F) (Hclip : paintable clip).

  (** Where a placed glyph can be *)
  Definition placed_ok (p : placed) : Prop :=
    glyph_ok (F (p_set p)) (p_off p) /\
    (p_x p = px (cmin clip) + 1 \/
     px (cmin clip) + 1 <= p_x p /\ p_x p + gl_w (F (p_set p)) (p_off p) + 2 < px (cmax clip)) /\
    p_y p <= py (cmax clip).

  Lemma layout_any_placed n c s :
    Forall placed_ok (fst (layout_any F clip st n c s)).
  Proof.
    revert c s; induction n as [|n IH]; intros c s; cbn [layout_any]; [constructor|].
    destruct s as [|ch t]; [constructor|].
    destruct (ch =? 10); [apply IH|].
    destruct (choose F st (ch :: t)) as [[[gs off] rest] known] eqn:Ech.
    destruct (N.ltb_spec (py (cmax clip)) (p_y (placed_at F gs off (seek F clip c (gl_w (F gs) off)))))
      as [Hb|Hb]; [apply IH|].
    specialize (IH (after F gs off (seek F clip c (gl_w (F gs) off))) rest).
    destruct (layout_any _ _ _ n _ rest) as [ps c']. cbn [fst] in *. constructor; [|exact IH].
    split; [|split].
    - unfold placed_at; csimpl. eapply (choose_ok F st HF); [|exact Ech]; discriminate.
    - unfold placed_at; csimpl. destruct (seek_bounds F clip c (gl_w (F gs) off)) as [->|H]; [left; reflexivity|right; lia].
    - exact Hb.
  Qed.

  Lemma lin_inked_inked ps x y :
    px (cmin clip) + 33 <= 352 ->
    Forall placed_ok ps -> x < 352 -> lin_inked F clip ps (y * 352 + x) = inked F clip ps x y.
  Proof.
    intros Hcx H Hx. induction H as [|p t Hp Ht IH]; [reflexivity|].
    cbn [lin_inked inked]. rewrite IH. f_equal. apply lin_ink_ink; [|assumption].
    destruct Hp as (Hg & Hpx & _). pose proof (go_w _ _ Hg).
    destruct Hclip as [Hc1 Hc2]. unfold WIDTH in *. lia.
  Qed.

  (** Ink stays inside the clip when the clip is at least 33 wide *)
  Lemma ink_in_clip p x y :
    33 <= clip_width clip -> placed_ok p -> ink F clip p x y = true -> in_clip clip x y = true.
  Proof.
    intros Hw (Hg & Hpx & Hpy) Hi. pose proof (go_w _ _ Hg).
    unfold ink, in_rect in Hi. unfold in_clip, in_rect.
    destruct Hclip as [Hc1 Hc2]. unfold clip_width, WIDTH, LINES in *. lia.
  Qed.

  Lemma inked_in_clip ps x y :
    33 <= clip_width clip -> Forall placed_ok ps -> in_clip clip x y = false -> inked F clip ps x y = false.
  Proof.
    intros Hw H Ho. induction H as [|p t Hp Ht IH]; [reflexivity|].
    cbn [inked]. rewrite IH. destruct (ink F clip p x y) eqn:E; [|reflexivity].
    rewrite (ink_in_clip p x y Hw Hp E) in Ho; discriminate.
  Qed.

  (** ** With 36 columns a glyph always fits on a fresh line *)
  Lemma seek_seek c w :
    36 <= clip_width clip -> w <= 32 -> seek F clip (seek F clip c w) w = seek F clip c w.
  Proof.
    intros Hcw Hw. destruct Hclip as [Hc1 Hc2]. unfold clip_width in *.
    assert (H : px (cmin clip) <= cx (seek F clip c w) /\ cx (seek F clip c w) + w + 3 < px (cmax clip)).
    { destruct (seek_bounds F clip c w) as [->|?]; lia. }
    destruct (seek F clip c w) as [[x y] lh]. csimpl. unfold seek; csimpl.
    replace (N.max x (px (cmin clip))) with x by lia.
    replace (px (cmax clip) <=? x + w + 3) with false by lia. reflexivity.
  Qed.

  Lemma layout_any_stall n c s gs off rest known :
    36 <= clip_width clip -> s <> [] -> nth_error s 0 <> Some 10 ->
    choose F st s = (gs, off, rest, known) -> known = true ->
    c = seek F clip c (gl_w (F gs) off) ->
    py (cmax clip) < p_y (placed_at F gs off c) ->
    layout_any F clip st n c s = ([], c).
  Proof.
    intros Hcw Hs Hnl Hch Hk Hseek Hb. induction n as [|n IH]; [reflexivity|].
    cbn [layout_any]. destruct s as [|ch t]; [congruence|].
    destruct (N.eqb_spec ch 10) as [->|]; [exfalso; apply Hnl; reflexivity|].
    rewrite Hch, <- Hseek.
    destruct (N.ltb_spec (py (cmax clip)) (p_y (placed_at F gs off c))); [|lia].
    rewrite Hk. cbn [rest_below]. exact IH.
  Qed.

  Lemma layout_any_layout n c s :
    36 <= clip_width clip ->
    layout_any F clip st n c s = layout n F clip st c s.
  Proof.
    intros Hcw. revert c s; induction n as [|n IH]; intros c s; [reflexivity|].
    cbn [layout_any layout]. destruct s as [|ch t]; [reflexivity|].
    destruct (N.eqb_spec ch 10) as [->|Hn]; [apply IH|].
    destruct (choose F st (ch :: t)) as [[[gs off] rest] known] eqn:Ech.
    cbv zeta. set (c1 := seek F clip c (gl_w (F gs) off)).
    destruct (N.ltb_spec (py (cmax clip)) (p_y (placed_at F gs off c1))) as [Hb|Hb].
    - destruct known; cbn [rest_below]; [|apply IH].
      assert (Hg : glyph_ok (F gs) off) by (eapply (choose_ok F st HF); [|exact Ech]; discriminate).
      apply (layout_any_stall n c1 (ch :: t) gs off rest true); try assumption; try reflexivity.
      + discriminate.
      + simpl; congruence.
      + unfold c1. symmetry; apply seek_seek; [assumption|apply Hg].
    - rewrite IH. reflexivity.
  Qed.
End Layout.

(** ** The main statements *)

Lemma clip_fits_33 clip : 33 <= clip_width clip -> paintable clip -> px (cmin clip) < 304 /\ clip_fits clip.
Proof. unfold clip_fits, paintable, clip_width, WIDTH; intros; split; [lia|left; lia]. Qed.

(** C14 *)
Lemma paint_refines m F fb clip c st s :
  cfg_ok m -> fontset_ok F -> is_frbuf fb -> paintable clip -> 36 <= clip_width clip ->
  cursor_fits m F c s ->
  let '(ps, c') := layout (N.to_nat (str_len s)) F clip st c s in
  exists fb', paint_str m F fb clip c st s = Ret (fb', c') /\ is_frbuf fb' /\
    forall x y, x < STORED_WIDTH -> y < LINES ->
      pixel fb' x y = xorb (pixel fb x y) (inked F clip ps x y).
Proof.
  intros Hm HF Hfb Hclip Hw Hc.
  destruct (clip_fits_33 clip ltac:(lia) Hclip) as [Hx Hfit].
  destruct (paint_str_any m F clip st Hm HF Hclip Hfit fb c s Hfb Hc) as (fb' & E & Hfb' & Hb).
  pose proof (layout_any_placed F clip st HF (N.to_nat (str_len s)) c s) as Hp.
  rewrite (layout_any_layout F clip st HF Hclip) in * by assumption.
  destruct (layout _ F clip st c s) as [ps c']. csimpl.
  exists fb'. split; [exact E|split; [assumption|]].
  intros x y Hx' Hy'. rewrite !pixel_lbit, Hb.
  rewrite (lin_inked_inked F clip Hclip) by (assumption || lia). reflexivity.
Qed.

(** ** Clips xor_char rejects *)
Fixpoint newlines (m : cfg) (F : fontset) (clip : cliprect) (k : nat) (c : cursor) : res cursor :=
  match k with
  | O => Ret c
  | S k' => c <- newline m F clip c ;; newlines m F clip k' c
  end.

Fixpoint leading_newlines (s : str) : nat :=
  match s with
  | ch :: t => if ch =? 10 then S (leading_newlines t) else O
  | [] => O
  end.

Lemma leading_le s : (leading_newlines s <= length s)%nat.
Proof. induction s as [|ch t IH]; simpl; [lia|]. destruct (ch =? 10); lia. Qed.

Lemma paint_loop_invalid n m F fb clip c st s :
  ~ paintable clip -> (leading_newlines s <= n)%nat ->
  paint_loop n m F clip st fb c s
  = (c' <- newlines m F clip (leading_newlines s) c ;; Ret (fb, c')).
Proof.
  intros Hclip. revert c s; induction n as [|n IH]; intros c s Hn.
  - replace (leading_newlines s) with O by lia. reflexivity.
  - cbn [paint_loop]. destruct s as [|ch t]; [reflexivity|].
    rewrite paint_step_cases. cbn [leading_newlines] in *.
    destruct (N.eqb_spec ch 10) as [->|Hne].
    + cbn [newlines]. destruct (newline m F clip c) as [c1|]; cbn [bind]; [|reflexivity].
      change (slice_from (10 :: t) 1) with (slice_from (10 :: t) (str_len (firstn 1 (10 :: t)))).
      rewrite slice_prefix. cbn [bind skipn]. apply IH. lia.
    + unfold step_glyph. rewrite xor_char_invalid by assumption. cbn [bind].
      change (slice_from (ch :: t) 0) with (Ret (ch :: t)). cbn [bind].
      rewrite IH; cbn [leading_newlines]; apply N.eqb_neq in Hne; rewrite Hne; [reflexivity|lia].
Qed.

(** C25 *)
Lemma paint_invalid m F fb clip c st s :
  ~ paintable clip ->
  paint_str m F fb clip c st s
  = (c' <- newlines m F clip (leading_newlines s) c ;; Ret (fb, c')).
Proof.
  intros H; apply paint_loop_invalid; [assumption|].
  pose proof (leading_le s). pose proof (str_len_ge s). lia.
Qed.

Lemma Nat_iter_swap {A} k (f : A -> A) x : Nat.iter k f (f x) = Nat.iter (S k) f x.
Proof. induction k as [|k IH]; [reflexivity|]. simpl in *. rewrite IH. reflexivity. Qed.

Lemma newlines_ok m F clip k c :
  cy c + N.max (line_height c) (tallest F) + (tallest F + 1) * N.of_nat k < usize_limit m ->
  newlines m F clip k c = Ret (Nat.iter k (break_line F clip) c).
Proof.
  revert c; induction k as [|k IH]; intros c H; [reflexivity|].
  cbn [newlines]. rewrite newline_spec by nia. cbn [bind].
  pose proof (tallest_ge F Small).
  rewrite IH by (unfold break_line; csimpl; nia).
  f_equal. apply Nat_iter_swap.
Qed.

Lemma paintable_dec clip : paintable clip \/ ~ paintable clip.
Proof. unfold paintable; lia. Qed.

(** C09 *)
Lemma paint_no_panic m F fb clip c st s :
  cfg_ok m -> fontset_ok F -> is_frbuf fb ->
  (paintable clip -> clip_fits clip) -> cursor_fits m F c s ->
  exists fb' c', paint_str m F fb clip c st s = Ret (fb', c') /\ is_frbuf fb'.
Proof.
  intros Hm HF Hfb Hfit Hc. destruct (paintable_dec clip) as [Hclip|Hclip].
  - destruct (paint_str_any m F clip st Hm HF Hclip (Hfit Hclip) fb c s Hfb Hc) as (fb' & E & Hfb' & _).
    eauto.
  - rewrite paint_invalid by assumption.
    destruct (cursor_fits_room m F c s Hc) as [_ Hr].
    pose proof (leading_le s). pose proof (str_len_ge s).
    rewrite newlines_ok by nia. cbn [bind]. eauto.
Qed.

(** C10 *)
Lemma paint_contained m F fb clip c st s fb' c' :
  cfg_ok m -> fontset_ok F -> is_frbuf fb -> 33 <= clip_width clip ->
  cursor_fits m F c s -> paint_str m F fb clip c st s = Ret (fb', c') ->
  forall x y, x < STORED_WIDTH -> y < LINES -> in_clip clip x y = false ->
    pixel fb' x y = pixel fb x y.
Proof.
  intros Hm HF Hfb Hw Hc E x y Hx Hy Hout.
  destruct (paintable_dec clip) as [Hclip|Hclip].
  - destruct (clip_fits_33 clip Hw Hclip) as [Hx' Hfit].
    destruct (paint_str_any m F clip st Hm HF Hclip Hfit fb c s Hfb Hc) as (fb2 & E2 & Hfb2 & Hb).
    rewrite E in E2. injection E2 as <- _.
    pose proof (layout_any_placed F clip st HF (N.to_nat (str_len s)) c s) as Hp.
    rewrite !pixel_lbit, Hb.
    rewrite (lin_inked_inked F clip Hclip) by (assumption || lia).
    rewrite (inked_in_clip F clip Hclip) by assumption. apply xorb_false_r.
  - rewrite paint_invalid in E by assumption.
    destruct (newlines _ _ _ _ _); cbn [bind] in E; [|discriminate].
    injection E as <- _. reflexivity.
Qed.

(** ** Cursor movement *)

(** Reading order of cursors *)
Definition cursor_le (a b : cursor) : Prop :=
  cy a < cy b \/ (cy a = cy b /\ cx a <= cx b /\ line_height a <= line_height b).

Lemma cursor_le_refl c : cursor_le c c.
Proof. right; lia. Qed.
Lemma cursor_le_trans a b c : cursor_le a b -> cursor_le b c -> cursor_le a c.
Proof. unfold cursor_le; lia. Qed.
Lemma break_line_le F clip c : cursor_le c (break_line F clip c).
Proof. left; unfold break_line; csimpl; lia. Qed.
Lemma seek_le F clip c w : cursor_le c (seek F clip c w).
Proof.
  unfold seek. destruct (_ <=? _).
  - left; unfold break_line; csimpl; lia.
  - right; csimpl; lia.
Qed.
Lemma after_le F gs off c : cursor_le c (after F gs off c).
Proof. right; unfold after; csimpl; lia. Qed.

Lemma layout_any_le F clip st n c s : cursor_le c (snd (layout_any F clip st n c s)).
Proof.
  revert c s; induction n as [|n IH]; intros c s; cbn [layout_any]; [apply cursor_le_refl|].
  destruct s as [|ch t]; [apply cursor_le_refl|].
  destruct (ch =? 10).
  { eapply cursor_le_trans; [apply (break_line_le F clip)|apply IH]. }
  destruct (choose F st (ch :: t)) as [[[gs off] rest] known].
  pose proof (seek_le F clip c (gl_w (F gs) off)) as H1.
  destruct (_ <? _).
  - eapply cursor_le_trans; [exact H1|apply IH].
  - pose proof (after_le F gs off (seek F clip c (gl_w (F gs) off))) as H2.
    specialize (IH (after F gs off (seek F clip c (gl_w (F gs) off))) rest).
    destruct (layout_any _ _ _ n _ rest) as [ps c']. csimpl.
    eapply cursor_le_trans; [exact H1|]. eapply cursor_le_trans; [exact H2|exact IH].
Qed.

Lemma iter_break_le F clip k c : cursor_le c (Nat.iter k (break_line F clip) c).
Proof.
  induction k as [|k IH]; [apply cursor_le_refl|].
  simpl. eapply cursor_le_trans; [exact IH|apply break_line_le].
Qed.

(** C16 *)
Lemma paint_cursor_forward m F fb clip c st s fb' c' :
  cfg_ok m -> fontset_ok F -> is_frbuf fb -> (paintable clip -> clip_fits clip) ->
  cursor_fits m F c s -> paint_str m F fb clip c st s = Ret (fb', c') -> cursor_le c c'.
Proof.
  intros Hm HF Hfb Hfit Hc E. destruct (paintable_dec clip) as [Hclip|Hclip].
  - destruct (paint_str_any m F clip st Hm HF Hclip (Hfit Hclip) fb c s Hfb Hc) as (fb2 & E2 & _).
    rewrite E in E2. injection E2 as _ ->. apply layout_any_le.
  - rewrite paint_invalid in E by assumption.
    destruct (cursor_fits_room m F c s Hc) as [_ Hr].
    pose proof (leading_le s). pose proof (str_len_ge s).
    rewrite newlines_ok in E by nia. injection E as _ <-. apply iter_break_le.
Qed.

(** C17 *)
Lemma paint_newline m F fb clip c st :
  cy c + N.max (f_max_height (F Small)) (line_height c) + 1 < usize_limit m ->
  paint_str m F fb clip c st [10] = Ret (fb, break_line F clip c).
Proof.
  intros H. unfold paint_str. change (N.to_nat (str_len [10])) with 1%nat.
  cbn [paint_loop]. rewrite paint_step_cases. cbn [N.eqb Pos.eqb].
  assert (E : newline m F clip c = Ret (break_line F clip c)).
  { unfold newline, break_line.
    replace (if line_height c <? f_max_height (F Small) then f_max_height (F Small) else line_height c)
      with (N.max (f_max_height (F Small)) (line_height c))
      by (destruct (N.ltb_spec (line_height c) (f_max_height (F Small))); lia).
    rewrite uadd_ok by lia. cbn [bind]. rewrite uadd_ok by lia. cbn [bind].
    rewrite N.add_assoc. reflexivity. }
  rewrite E. reflexivity.
Qed.

(** ** Glyphs of one call do not overlap *)

(** q is right of p or below it *)
Definition box_after (F : fontset) (p q : placed) : Prop :=
  p_x p + gl_w (F (p_set p)) (p_off p) <= p_x q \/
  p_y p + gl_h (F (p_set p)) (p_off p) <= p_y q.

Section Disjoint.
  Context (F : fontset) (clip : cliprect) (st : glyphstyle).
  Context (HF : fontset_ok F).

  (** q is placed from a cursor at c or later *)
  Definition from_cursor (c : cursor) (q : placed) : Prop :=
    cx c + 1 <= p_x q \/ cy c + line_height c + 1 <= p_y q.

  Lemma from_cursor_le a b q : cursor_le a b -> cy b <= p_y q ->
    (cy a = cy b \/ cy a + line_height a + 1 <= cy b) ->
    from_cursor b q -> from_cursor a q.
  Proof. unfold cursor_le, from_cursor; lia. Qed.

  Lemma seek_step c w : cy c = cy (seek F clip c w) \/ cy c + line_height c + 1 <= cy (seek F clip c w).
  Proof. unfold seek. destruct (_ <=? _); unfold break_line; csimpl; lia. Qed.

  Lemma layout_from n c s :
    Forall (fun q => cy c <= p_y q /\ from_cursor c q) (fst (layout_any F clip st n c s)).
  Proof.
    revert c s; induction n as [|n IH]; intros c s; cbn [layout_any]; [constructor|].
    destruct s as [|ch t]; [constructor|].
    destruct (ch =? 10).
    { eapply Forall_impl; [|apply IH]. intros q [Hy Hq].
      split; [unfold break_line in Hy; csimpl; lia|].
      eapply from_cursor_le; [apply (break_line_le F clip)|exact Hy| |exact Hq].
      right; unfold break_line; csimpl; lia. }
    destruct (choose F st (ch :: t)) as [[[gs off] rest] known] eqn:Ech.
    pose proof (seek_le F clip c (gl_w (F gs) off)) as H1.
    pose proof (seek_step c (gl_w (F gs) off)) as H2.
    set (c1 := seek F clip c (gl_w (F gs) off)) in *.
    destruct (_ <? _).
    - eapply Forall_impl; [|apply IH]. intros q [Hy Hq].
      split; [unfold cursor_le in H1; lia|].
      eapply from_cursor_le; [exact H1|exact Hy|exact H2|exact Hq].
    - specialize (IH (after F gs off c1) rest).
      destruct (layout_any F clip st n (after F gs off c1) rest) as [ps c']. cbn [fst] in *.
      constructor.
      + unfold placed_at, from_cursor; csimpl. unfold cursor_le in H1. lia.
      + eapply Forall_impl; [|apply IH]. intros q [Hy Hq].
        unfold after, from_cursor in *; csimpl. unfold cursor_le in H1. lia.
  Qed.

  Lemma layout_disjoint n c s : ForallOrdPairs (box_after F) (fst (layout_any F clip st n c s)).
  Proof.
    revert c s; induction n as [|n IH]; intros c s; cbn [layout_any]; [constructor|].
    destruct s as [|ch t]; [constructor|].
    destruct (ch =? 10); [apply IH|].
    destruct (choose F st (ch :: t)) as [[[gs off] rest] known] eqn:Ech.
    set (c1 := seek F clip c (gl_w (F gs) off)).
    destruct (_ <? _); [apply IH|].
    specialize (IH (after F gs off c1) rest).
    pose proof (layout_from n (after F gs off c1) rest) as Hfrom.
    destruct (layout_any F clip st n (after F gs off c1) rest) as [ps c']. cbn [fst] in *.
    constructor; [|exact IH].
    eapply Forall_impl; [|exact Hfrom]. intros q [Hy Hq].
    assert (Hg : glyph_ok (F gs) off) by (eapply (choose_ok F st HF); [|exact Ech]; discriminate).
    pose proof (go_height _ _ Hg).
    unfold box_after, placed_at, from_cursor, after in *; csimpl. lia.
  Qed.

  Lemma ink_box p x y : ink F clip p x y = true ->
    p_x p <= x < p_x p + gl_w (F (p_set p)) (p_off p) /\
    p_y p <= y < p_y p + gl_h (F (p_set p)) (p_off p).
  Proof. unfold ink, in_rect. lia. Qed.

  (** In disjoint boxes at most one glyph inverts a pixel *)
  Lemma inked_existsb ps x y :
    ForallOrdPairs (box_after F) ps ->
    inked F clip ps x y = existsb (fun p => ink F clip p x y) ps.
  Proof.
    intros H. induction H as [|p ps Hp Hps IH]; [reflexivity|].
    cbn [inked existsb]. rewrite IH.
    destruct (ink F clip p x y) eqn:E; [|apply xorb_false_l].
    cbn [orb]. destruct (existsb _ ps) eqn:E2; [|reflexivity].
    exfalso. apply existsb_exists in E2 as (q & Hin & Eq).
    rewrite Forall_forall in Hp. specialize (Hp q Hin).
    apply ink_box in E, Eq. unfold box_after in Hp. lia.
  Qed.
End Disjoint.

(** C24 *)
Lemma paint_disjoint m F fb clip c st s :
  cfg_ok m -> fontset_ok F -> is_frbuf fb -> paintable clip -> 36 <= clip_width clip ->
  cursor_fits m F c s ->
  let '(ps, c') := layout (N.to_nat (str_len s)) F clip st c s in
  ForallOrdPairs (box_after F) ps /\
  exists fb', paint_str m F fb clip c st s = Ret (fb', c') /\
    forall x y, x < STORED_WIDTH -> y < LINES ->
      pixel fb' x y = xorb (pixel fb x y) (existsb (fun p => ink F clip p x y) ps).
Proof.
  intros Hm HF Hfb Hclip Hw Hc.
  pose proof (paint_refines m F fb clip c st s Hm HF Hfb Hclip Hw Hc) as H.
  pose proof (layout_disjoint F clip st HF (N.to_nat (str_len s)) c s) as Hd.
  rewrite (layout_any_layout F clip st HF Hclip) in Hd by assumption.
  destruct (layout _ F clip st c s) as [ps c']. csimpl.
  destruct H as (fb' & E & _ & Hpx). split; [exact Hd|].
  exists fb'; split; [exact E|]. intros x y Hx Hy. rewrite Hpx by assumption.
  rewrite (inked_existsb F clip) by assumption. reflexivity.
Qed.

(** ** C15 *)
Definition inside_columns (F : fontset) (clip : cliprect) (p : placed) : Prop :=
  px (cmin clip) + 1 <= p_x p /\ p_x p + gl_w (F (p_set p)) (p_off p) + 2 < px (cmax clip).

Lemma layout_columns F clip st n c s :
  fontset_ok F -> paintable clip -> 36 <= clip_width clip ->
  Forall (inside_columns F clip) (fst (layout n F clip st c s)).
Proof.
  intros HF Hclip Hw. rewrite <- (layout_any_layout F clip st HF Hclip) by assumption.
  eapply Forall_impl; [|apply (layout_any_placed F clip st HF)].
  intros p (Hg & Hx & _). pose proof (go_w _ _ Hg). destruct Hclip as [Hc1 Hc2].
  unfold inside_columns, clip_width in *. lia.
Qed.

Lemma layout_cursor_column F clip st n c s :
  fontset_ok F -> paintable clip -> 36 <= clip_width clip ->
  px (cmin clip) <= cx c < px (cmax clip) \/ (s <> [] /\ n <> O) ->
  px (cmin clip) <= cx (snd (layout n F clip st c s)) < px (cmax clip).
Proof.
  intros HF Hclip Hw. revert c s; induction n as [|n IH]; intros c s H.
  { cbn [layout snd]. destruct H as [H|[_ H]]; [exact H|congruence]. }
  cbn [layout]. destruct s as [|ch t].
  { cbn [snd]. destruct H as [H|[H _]]; [exact H|congruence]. }
  clear H. destruct Hclip as [Hc1 Hc2].
  destruct (ch =? 10).
  { apply IH. left. unfold break_line; csimpl. lia. }
  destruct (choose F st (ch :: t)) as [[[gs off] rest] known] eqn:Ech.
  assert (Hg : glyph_ok (F gs) off) by (eapply (choose_ok F st HF); [|exact Ech]; discriminate).
  pose proof (go_w _ _ Hg). cbv zeta.
  pose proof (seek_bounds F clip c (gl_w (F gs) off)) as Hs.
  set (c1 := seek F clip c (gl_w (F gs) off)) in *.
  assert (Hc : px (cmin clip) <= cx c1 /\ cx c1 + gl_w (F gs) off + 3 < px (cmax clip))
    by (unfold clip_width in *; lia).
  destruct (_ <? _).
  - destruct known; [csimpl; lia|]. apply IH. left; lia.
  - specialize (IH (after F gs off c1) rest).
    destruct (layout n F clip st (after F gs off c1) rest) as [ps c']. csimpl.
    apply IH. left. unfold after; csimpl. lia.
Qed.

(** ** C18 *)
Definition on_line (F : fontset) (y : N) (p : placed) : bool :=
  p_y p =? y + gl_y (F (p_set p)) (p_off p).

Fixpoint line_max (F : fontset) (y : N) (ps : list placed) (start : N) : N :=
  match ps with
  | [] => start
  | p :: t => line_max F y t (if on_line F y p then N.max start (f_max_height (F (p_set p))) else start)
  end.

Lemma layout_cy F clip st n c s : cy c <= cy (snd (layout_any F clip st n c s)).
Proof. pose proof (layout_any_le F clip st n c s). unfold cursor_le in *; lia. Qed.

Lemma layout_line_height F clip st n c s :
  let '(ps, c') := layout_any F clip st n c s in
  line_height c' = line_max F (cy c') ps (if cy c' =? cy c then line_height c else 0).
Proof.
  revert c s; induction n as [|n IH]; intros c s; cbn [layout_any].
  { cbn [line_max]. rewrite N.eqb_refl. reflexivity. }
  destruct s as [|ch t].
  { cbn [line_max]. rewrite N.eqb_refl. reflexivity. }
  destruct (ch =? 10).
  { specialize (IH (break_line F clip c) t).
    pose proof (layout_cy F clip st n (break_line F clip c) t) as Hcy.
    destruct (layout_any F clip st n (break_line F clip c) t) as [ps c'].
    unfold break_line in *; csimpl. rewrite IH.
    replace (cy c' =? cy c) with false by lia.
    destruct (_ =? _); reflexivity. }
  destruct (choose F st (ch :: t)) as [[[gs off] rest] known] eqn:Ech.
  assert (Hs : forall w, let c1 := seek F clip c w in
       (cy c1 = cy c /\ line_height c1 = line_height c) \/ (cy c < cy c1 /\ line_height c1 = 0)).
  { intros w. unfold seek. destruct (_ <=? _); unfold break_line; csimpl; lia. }
  specialize (Hs (gl_w (F gs) off)). cbv zeta in Hs.
  set (c1 := seek F clip c (gl_w (F gs) off)) in *.
  destruct (_ <? _).
  - specialize (IH c1 (rest_below (ch :: t) rest known)).
    pose proof (layout_cy F clip st n c1 (rest_below (ch :: t) rest known)) as Hcy.
    destruct (layout_any F clip st n c1 _) as [ps c']. csimpl.
    rewrite IH. f_equal.
    destruct (N.eqb_spec (cy c') (cy c1)), (N.eqb_spec (cy c') (cy c)); lia.
  - specialize (IH (after F gs off c1) rest).
    pose proof (layout_cy F clip st n (after F gs off c1) rest) as Hcy.
    destruct (layout_any F clip st n (after F gs off c1) rest) as [ps c']. csimpl.
    rewrite IH. cbn [line_max]. unfold after, placed_at, on_line in *; csimpl.
    f_equal.
    destruct (N.eqb_spec (cy c') (cy c1)), (N.eqb_spec (cy c') (cy c)),
      (N.eqb_spec (cy c1 + gl_y (F gs) off) (cy c' + gl_y (F gs) off)); lia.
Qed.
