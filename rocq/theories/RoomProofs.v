(** * Texts that have room are shown to the end: proofs *)
From Coq Require Import ZArith.
From Verif Require Import PrimFacts Geom Str FontDefs Blit Spec SpecPaint SpecText TextProofs SpecRoom Fonts FontsOk.

Lemma segmented_shows F st s : segmented F st s -> exists l, shows F st s l.
Proof.
  induction 1 as [|t _ [l IH]|ch t gs off rest Hne E _ [l IH]|ch d t gs off Hne E _ [l IH]].
  - exists []. constructor.
  - exists (None :: l). constructor; assumption.
  - exists (Some (gs, off) :: l). econstructor; eauto.
  - exists (Some (gs, off) :: l). econstructor; eauto. right; discriminate.
Qed.

Lemma shows_segmented F st s l : shows F st s l -> segmented F st s.
Proof.
  induction 1 as [|t l _ IH|ch t gs off rest known l Hne E Hk _ IH].
  - constructor.
  - constructor; assumption.
  - destruct known; [econstructor; eassumption|].
    destruct Hk as [Hk|Hk]; [discriminate|]. destruct t as [|d t]; [congruence|].
    assert (rest = d :: t) as ->.
    { unfold choose in E. destruct (glyph_for (F Emoji) _) as [[]|]; [discriminate|].
      destruct (glyph_for (F (latin_set st)) (ch :: d :: t)) as [[]|]; [discriminate|].
      destruct (glyph_for (F Hanzi) _) as [[]|]; [discriminate|].
      injection E as _ _ <-. reflexivity. }
    econstructor; eassumption.
Qed.

(** ** Counting *)
Lemma breaks_none l : breaks (None :: l) = breaks l + 1.
Proof. unfold breaks. cbn [filter length]. lia. Qed.
Lemma breaks_some g l : breaks (Some g :: l) = breaks l.
Proof. reflexivity. Qed.

Lemma newlines_skipn n s : newlines (skipn n s) <= newlines s.
Proof.
  revert n; induction s as [|ch t IH]; intros [|n]; try (cbn; lia).
  cbn [skipn]. specialize (IH n). unfold newlines in *. cbn [filter]. destruct (10 =? ch); cbn [length]; lia.
Qed.
Lemma others_skipn n s : others (skipn n s) <= others s.
Proof.
  revert n; induction s as [|ch t IH]; intros [|n]; try (cbn; lia).
  cbn [skipn]. specialize (IH n). unfold others in *. cbn [filter]. destruct (negb (ch =? 10)); cbn [length]; lia.
Qed.

Lemma match_limits_pos f b ch t limits off n : Forall (fun l => 1 <= l) limits ->
  match_limits f b (ch :: t) limits = Some (off, n) -> (1 <= n)%nat.
Proof.
  induction 1 as [|l limits Hl _ IH]; cbn [match_limits]; [discriminate|].
  destruct (index_of _ _); [|exact IH]. intros E; injection E as _ <-. cbn [length]. lia.
Qed.
Lemma glyph_for_pos f ch t off n : font_ok f -> glyph_for f (ch :: t) = Some (off, n) -> (1 <= n)%nat.
Proof.
  intros Hf. unfold glyph_for. destruct (find _ _) as [b|] eqn:E; [|discriminate].
  apply find_some in E as [Hb _]. apply match_limits_pos.
  pose proof (fo_blocks _ Hf) as H. rewrite Forall_forall in H. exact (bo_limits _ _ (H b Hb)).
Qed.
Lemma choose_rest F st ch t gs off rest known : fontset_ok F -> choose F st (ch :: t) = (gs, off, rest, known) ->
  known = true \/ t <> [] -> exists n, rest = skipn n t.
Proof.
  intros HF E Hk. unfold choose in E.
  assert (P : forall f k o, font_ok f -> glyph_for f (ch :: t) = Some (o, k) -> exists n, skipn k (ch :: t) = skipn n t).
  { intros f k o Hf Eg. pose proof (glyph_for_pos f ch t o k Hf Eg). destruct k as [|k]; [lia|]. exists k. reflexivity. }
  destruct (glyph_for (F Emoji) (ch :: t)) as [[o k]|] eqn:E1.
  { injection E as _ _ <- _. apply (P _ _ _ (fs_fonts _ HF Emoji) E1). }
  destruct (glyph_for (F (latin_set st)) (ch :: t)) as [[o k]|] eqn:E2.
  { injection E as _ _ <- _. apply (P _ _ _ (fs_fonts _ HF (latin_set st)) E2). }
  destruct (glyph_for (F Hanzi) (ch :: t)) as [[o k]|] eqn:E3.
  { injection E as _ _ <- _. apply (P _ _ _ (fs_fonts _ HF Hanzi) E3). }
  injection E as _ _ <- <-. destruct Hk as [Hk|Hk]; [discriminate|].
  unfold drop_char. cbn [tl]. destruct t; [congruence|]. exists O. reflexivity.
Qed.

Lemma shows_count F st s l : fontset_ok F -> shows F st s l ->
  breaks l <= newlines s /\ N.of_nat (length (glyphs l)) <= others s.
Proof.
  intros HF. induction 1 as [|t l _ [IH1 IH2]|ch t gs off rest known l Hne E Hk _ [IH1 IH2]].
  - split; apply N.le_refl.
  - rewrite breaks_none. change (others (10 :: t)) with (others t). change (glyphs (None :: l)) with (glyphs l).
    assert (newlines (10 :: t) = newlines t + 1) by (unfold newlines; change (filter (N.eqb 10) (10 :: t)) with (10 :: filter (N.eqb 10) t); cbn [length]; lia).
    lia.
  - rewrite breaks_some. cbn [glyphs flat_map app length]. fold (glyphs l).
    destruct (choose_rest F st ch t gs off rest known HF E Hk) as [n ->].
    pose proof (newlines_skipn n t). pose proof (others_skipn n t).
    unfold newlines, others in *. cbn [filter].
    destruct (N.eqb_spec 10 ch); [congruence|]. destruct (N.eqb_spec ch 10); [congruence|]. cbn [negb length]. lia.
Qed.

Lemma shows_ok F st s l : fontset_ok F -> shows F st s l -> Forall (fun g => glyph_ok (F (fst g)) (snd g)) (glyphs l).
Proof.
  intros HF. induction 1 as [|t l _ IH|ch t gs off rest known l Hne E Hk _ IH].
  - constructor.
  - exact IH.
  - cbn [glyphs flat_map app]. constructor; [|exact IH]. cbn [fst snd].
    eapply (choose_ok F st HF); [|exact E]; discriminate.
Qed.

(** ** The layout *)
Section Room.
  Context (F : fontset) (clip : cliprect) (st : glyphstyle) (w h : N).
  Context (HF : fontset_ok F) (Hw : w + 3 < clip_width clip) (Hsmall : f_max_height (F Small) <= h).
  Let K := per_line w clip.

  Lemma per_line_pos : 1 <= K /\ (w + 3) * K < clip_width clip.
  Proof.
    unfold K, per_line. split.
    - apply N.div_le_lower_bound; lia.
    - pose proof (N.mul_div_le (clip_width clip - 1) (w + 3)). lia.
  Qed.

  (** [j] glyphs on this line, or it is full *)
  Definition at_glyph (j : N) (c : cursor) : Prop := K <= j \/ cx c <= px (cmin clip) + (w + 3) * j.

  Lemma seek_room j c gw : at_glyph j c -> gw <= w -> line_height c <= h ->
    let c1 := seek F clip c gw in
    (K <= j /\ c1 = break_line F clip (Cursor (Pt (N.max (cx c) (px (cmin clip))) (cy c)) (line_height c))) \/
    (cy c1 = cy c /\ line_height c1 = line_height c /\ px (cmin clip) <= cx c1 /\ cx c1 + gw + 3 < px (cmax clip) /\
     (K <= j \/ cx c1 <= px (cmin clip) + (w + 3) * j)).
  Proof.
    intros Hj Hg Hh. cbv zeta. destruct per_line_pos as [P1 P2]. unfold clip_width in *. unfold seek.
    set (c0 := Cursor _ _). assert (cx c0 = N.max (cx c) (px (cmin clip))) as Ec by reflexivity.
    assert (cy c0 = cy c /\ line_height c0 = line_height c) as [Ey El] by (split; reflexivity).
    destruct (N.leb_spec (px (cmax clip)) (cx c0 + gw + 3)) as [L|L]; [left|right].
    - split; [|reflexivity]. destruct (N.le_gt_cases K j) as [|Q]; [assumption|exfalso].
      destruct Hj as [Hj|Hj]; [lia|].
      assert ((w + 3) * (j + 1) <= (w + 3) * K) by (apply N.mul_le_mono_l; lia). lia.
    - rewrite Ec, Ey, El in *. repeat split; try lia. destruct Hj as [Hj|Hj]; [left; assumption|right]. lia.
  Qed.

  Lemma layout_room s l : shows F st s l -> Forall (no_larger F w h) (glyphs l) ->
    forall n j c, (length s <= n)%nat -> at_glyph j c -> line_height c <= h -> py (cmin clip) <= cy c ->
    cy c + (h + 1) * (breaks l + (j + N.of_nat (length (glyphs l)) - 1) / K) + h <= py (cmax clip) ->
    fits n F clip st c s = true /\
    let '(ps, c') := layout n F clip st c s in
    map (fun p => (p_set p, p_off p)) ps = glyphs l /\ Forall (all_inside F clip) ps /\
    cy c' <= cy c + (h + 1) * (breaks l + (j + N.of_nat (length (glyphs l)) - 1) / K).
  Proof.
    intros Hs. destruct per_line_pos as [P1 P2].
    induction Hs as [|t l Ht IH|ch t gs off rest known l Hne Ech Hk Hr IH]; intros Hl n j c Hn Hj Hh Hy Hroom.
    - destruct n; cbn [layout fits]; (split; [reflexivity|split; [reflexivity|split; [constructor|apply N.le_add_r]]]).
    - cbn [length] in Hn. destruct n as [|n]; [lia|]. cbn [layout fits N.eqb Pos.eqb].
      rewrite breaks_none in *. cbn [glyphs flat_map app] in *. fold (glyphs l) in *.
      set (g := N.of_nat (length (glyphs l))) in *.
      assert (D : (0 + g - 1) / K <= (j + g - 1) / K) by (apply N.div_le_mono; lia).
      set (d := (j + g - 1) / K) in *. set (d' := (0 + g - 1) / K) in *.
      assert (M : (h + 1) * (breaks l + d') + (h + 1) <= (h + 1) * (breaks l + 1 + d)) by (rewrite <- N.mul_succ_r; apply N.mul_le_mono_l; lia).
      assert (Q : cy (break_line F clip c) <= cy c + (h + 1) /\ cy c <= cy (break_line F clip c)) by (unfold break_line; cbn; lia).
      specialize (IH Hl n 0 (break_line F clip c) ltac:(lia)).
      destruct IH as [If IH].
      + right. unfold break_line; cbn. lia.
      + cbn. lia.
      + lia.
      + fold g d'. lia.
      + split; [exact If|]. destruct (layout n F clip st (break_line F clip c) t) as [ps c'].
        destruct IH as (I1 & I2 & I3). split; [exact I1|split; [exact I2|]]. fold g d' in I3. lia.
    - destruct n as [|n]; [cbn [length] in Hn; lia|].
      assert (Hlen : (length rest <= n)%nat).
      { destruct (choose_rest F st ch t gs off rest known HF Ech Hk) as [k ->]. rewrite skipn_length. cbn [length] in Hn. lia. }
      rewrite breaks_some in *. cbn [glyphs flat_map app length] in *. fold (glyphs l) in *.
      inversion Hl as [|x y [Hgw Hgh] Hl']; subst x y. cbn [fst snd] in *.
      assert (Hg : glyph_ok (F gs) off) by (eapply (choose_ok F st HF); [|exact Ech]; discriminate).
      pose proof (go_height _ _ Hg) as Hgy.
      cbn [layout fits]. apply N.eqb_neq in Hne. rewrite Hne, Ech. cbv zeta.
      rewrite Nat2N.inj_succ in *. set (g := N.of_nat (length (glyphs l))) in *.
      replace (j + N.succ g - 1) with (j + g) in * by lia.
      (* the line, and what is left of the room for the rest *)
      assert (X : exists j1 c1, seek F clip c (gl_w (F gs) off) = c1 /\ px (cmin clip) <= cx c1 /\
                  cx c1 + gl_w (F gs) off + 1 < px (cmax clip) /\ cy c <= cy c1 /\
                  at_glyph j1 (after F gs off c1) /\ line_height (after F gs off c1) <= h /\
                  cy c1 + (h + 1) * (breaks l + (j1 + g - 1) / K) <= cy c + (h + 1) * (breaks l + (j + g) / K)).
      { destruct (seek_room j c (gl_w (F gs) off) Hj Hgw Hh) as [[Hfull E]|(E1 & E2 & E3 & E4 & E5)].
        - exists 1. eexists. split; [exact E|]. unfold break_line. cbn [cx cy px py cpt line_height after at_glyph].
          unfold clip_width in *.
          split; [lia|]. split; [lia|]. split; [lia|]. split; [right; cbn; lia|]. split; [cbn; lia|].
          assert ((K + g) / K <= (j + g) / K) as D by (apply N.div_le_mono; lia).
          replace (K + g) with (1 * K + g) in D by lia. rewrite N.div_add_l in D by lia.
          replace (1 + g - 1) with g by lia.
          assert (M : (h + 1) * (breaks l + g / K) + (h + 1) <= (h + 1) * (breaks l + (j + g) / K)) by (rewrite <- N.mul_succ_r; apply N.mul_le_mono_l; lia).
          lia.
        - exists (j + 1), (seek F clip c (gl_w (F gs) off)). split; [reflexivity|]. split; [exact E3|]. split; [lia|].
          split; [lia|]. split.
          { destruct E5 as [E5|E5]; [left; lia|right]. cbn. lia. }
          split; [cbn; lia|]. replace (j + 1 + g - 1) with (j + g) by lia. lia. }
      destruct X as (j1 & c1 & -> & X1 & X2 & X3 & X4 & X5 & X6).
      set (d1 := (h + 1) * (breaks l + (j1 + g - 1) / K)) in *. set (d := (h + 1) * (breaks l + (j + g) / K)) in *.
      assert (Y : p_y (placed_at F gs off c1) + gl_h (F gs) off <= py (cmax clip)) by (cbn; lia).
      destruct (IH Hl' n j1 (after F gs off c1) Hlen X4 X5) as [If I].
      { cbn. lia. }
      { fold g d1. cbn [after cy cpt py]. change (cy (after F gs off c1)) with (cy c1). lia. }
      split.
      { rewrite If, andb_true_r. apply N.leb_le. lia. }
      destruct (N.ltb_spec (py (cmax clip)) (p_y (placed_at F gs off c1))); [lia|].
      destruct (layout n F clip st (after F gs off c1) rest) as [ps c']. destruct I as (I1 & I2 & I3).
      split; [cbn [map placed_at p_set p_off]; rewrite I1; reflexivity|].
      split; [constructor; [|exact I2]|].
      { unfold all_inside. cbn [placed_at p_set p_off p_x p_y] in *. lia. }
      fold g d1 in I3. change (cy (after F gs off c1)) with (cy c1) in I3. lia.
  Qed.
End Room.

Lemma used_up_at w clip c : at_glyph clip w (used_up w clip c) c.
Proof.
  unfold at_glyph, used_up. set (q := (cx c - px (cmin clip) + (w + 2)) / (w + 3)).
  destruct (N.min_spec (per_line w clip) q) as [[_ ->]|[_ ->]]; [left; lia|right].
  pose proof (N.mul_succ_div_gt (cx c - px (cmin clip) + (w + 2)) (w + 3) ltac:(lia)) as H. fold q in H. lia.
Qed.

Lemma new_lines_le w clip c b b' g g' : w + 3 < clip_width clip -> b <= b' -> g <= g' ->
  new_lines w clip c b g <= new_lines w clip c b' g'.
Proof.
  intros Hw Hb Hg. unfold new_lines.
  assert (1 <= per_line w clip) by (unfold per_line; apply N.div_le_lower_bound; lia).
  assert ((used_up w clip c + g - 1) / per_line w clip <= (used_up w clip c + g' - 1) / per_line w clip)
    by (apply N.div_le_mono; lia). lia.
Qed.

Lemma inside_stamp F clip ps x y : Forall (all_inside F clip) ps -> inked F clip ps x y = stamped F ps x y.
Proof.
  induction 1 as [|p ps Hp _ IH]; cbn [inked stamped]; [reflexivity|]. rewrite IH. f_equal.
  destruct Hp as (_ & _ & H1 & H2). unfold ink, stamp.
  destruct (in_rect _ _ _ _ x y) eqn:E; [|reflexivity].
  unfold in_rect in E. rewrite !andb_true_iff in E. destruct E as [[[_ _] E1] E2].
  replace (py (cmin clip) <=? y) with true by lia. replace (y <? py (cmax clip)) with true by lia. reflexivity.
Qed.

Lemma paint_room m F fb clip c st s l w h :
  cfg_ok m -> fontset_ok F -> is_frbuf fb -> paintable clip -> 36 <= clip_width clip -> cursor_fits m F c s ->
  shows F st s l -> Forall (no_larger F w h) (glyphs l) -> f_max_height (F Small) <= h -> line_height c <= h ->
  room w h clip c (breaks l) (N.of_nat (length (glyphs l))) ->
  exists ps fb' c', paint_str m F fb clip c st s = Ret (fb', c') /\ is_frbuf fb' /\
    map (fun p => (p_set p, p_off p)) ps = glyphs l /\ Forall (all_inside F clip) ps /\
    cy c' <= cy c + (h + 1) * new_lines w clip c (breaks l) (N.of_nat (length (glyphs l))) /\
    forall x y, x < STORED_WIDTH -> y < LINES -> pixel fb' x y = xorb (pixel fb x y) (stamped F ps x y).
Proof.
  intros Hm HF Hfb Hclip Hw Hc Hs Hl Hsm Hh (R1 & R2 & R3).
  pose proof (paint_refines m F fb clip c st s Hm HF Hfb Hclip Hw Hc) as R.
  pose proof (str_len_ge s) as Hlen.
  destruct (layout_room F clip st w h HF R1 Hsm s l Hs Hl (N.to_nat (str_len s)) (used_up w clip c) c
              ltac:(lia) (used_up_at w clip c) Hh R2 R3) as [_ L].
  destruct (layout _ F clip st c s) as [ps c']. destruct R as (fb' & E & Hfb' & Hp).
  destruct L as (L1 & L2 & L3). exists ps, fb', c'.
  repeat (split; [assumption|]). intros x y Hx Hy. rewrite (Hp x y Hx Hy), (inside_stamp F clip ps x y L2). reflexivity.
Qed.

Lemma fits_room F clip c st s l w h n :
  fontset_ok F -> shows F st s l -> Forall (no_larger F w h) (glyphs l) -> f_max_height (F Small) <= h -> line_height c <= h ->
  room w h clip c (breaks l) (N.of_nat (length (glyphs l))) -> (length s <= n)%nat -> fits n F clip st c s = true.
Proof.
  intros HF Hs Hl Hsm Hh (R1 & R2 & R3) Hn.
  exact (proj1 (layout_room F clip st w h HF R1 Hsm s l Hs Hl n (used_up w clip c) c Hn (used_up_at w clip c) Hh R2 R3)).
Qed.

Lemma all_no_larger F st s l : fontset_ok F -> shows F st s l -> Forall (no_larger F 32 (tallest F)) (glyphs l).
Proof.
  intros HF Hs. eapply Forall_impl; [|exact (shows_ok F st s l HF Hs)]. intros [gs off] Hg. cbn [fst snd] in *.
  split; [exact (proj2 (go_w _ _ Hg))|]. cbn [fst]. unfold tallest. destruct gs; lia.
Qed.

Lemma room_le w h clip c b b' g g' : b <= b' -> g <= g' -> room w h clip c b' g' -> room w h clip c b g.
Proof.
  intros Hb Hg (R1 & R2 & R3). split; [exact R1|split; [exact R2|]].
  pose proof (new_lines_le w clip c b b' g g' R1 Hb Hg) as H. apply (N.mul_le_mono_l _ _ (h + 1)) in H. lia.
Qed.

(** For any text, from its characters *)
Lemma paint_room_chars m F fb clip c st s :
  cfg_ok m -> fontset_ok F -> is_frbuf fb -> paintable clip -> cursor_fits m F c s ->
  segmented F st s -> line_height c <= tallest F -> room 32 (tallest F) clip c (newlines s) (others s) ->
  exists l ps fb' c', shows F st s l /\ paint_str m F fb clip c st s = Ret (fb', c') /\ is_frbuf fb' /\
    map (fun p => (p_set p, p_off p)) ps = glyphs l /\ Forall (all_inside F clip) ps /\
    cy c' <= cy c + (tallest F + 1) * new_lines 32 clip c (newlines s) (others s) /\
    forall x y, x < STORED_WIDTH -> y < LINES -> pixel fb' x y = xorb (pixel fb x y) (stamped F ps x y).
Proof.
  intros Hm HF Hfb Hclip Hc Hseg Hh Hroom. destruct (segmented_shows F st s Hseg) as [l Hs].
  destruct (shows_count F st s l HF Hs) as [N1 N2]. pose proof (proj1 Hroom) as Hw.
  assert (Hsm : f_max_height (F Small) <= tallest F) by (unfold tallest; lia).
  destruct (paint_room m F fb clip c st s l 32 (tallest F) Hm HF Hfb Hclip ltac:(lia) Hc Hs (all_no_larger F st s l HF Hs) Hsm Hh
              (room_le _ _ _ _ _ _ _ _ N1 N2 Hroom)) as (ps & fb' & c' & P1 & P2 & P3 & P4 & P5 & P6).
  exists l, ps, fb', c'. repeat (split; [assumption|]). split; [|exact P6].
  pose proof (new_lines_le 32 clip c _ _ _ _ Hw N1 N2) as H. apply (N.mul_le_mono_l _ _ (tallest F + 1)) in H. lia.
Qed.

Lemma fits_room_chars F clip c st s n : fontset_ok F -> segmented F st s -> line_height c <= tallest F ->
  room 32 (tallest F) clip c (newlines s) (others s) -> (length s <= n)%nat -> fits n F clip st c s = true.
Proof.
  intros HF Hseg Hh Hroom Hn. destruct (segmented_shows F st s Hseg) as [l Hs].
  destruct (shows_count F st s l HF Hs) as [N1 N2].
  apply (fits_room F clip c st s l 32 (tallest F) n HF Hs (all_no_larger F st s l HF Hs)); try assumption.
  - unfold tallest; lia.
  - exact (room_le _ _ _ _ _ _ _ _ N1 N2 Hroom).
Qed.

(** ** Latin text of this crate's fonts *)
Definition widest (st : glyphstyle) : N := match st with StSmall => 18 | StRegular => 20 | StBold => 20 end.
Definition widths_ok (st : glyphstyle) : bool :=
  forallb (fun b => forallb (fun o => gl_w (blitstr_fonts (latin_set st)) o <=? widest st) (b_offset b))
          (f_blocks (blitstr_fonts (latin_set st))).
Lemma widths st : widths_ok st = true.
Proof. destruct st; vm_compute; reflexivity. Qed.

Lemma glyph_for_width st s off n : glyph_for (blitstr_fonts (latin_set st)) s = Some (off, n) ->
  gl_w (blitstr_fonts (latin_set st)) off <= widest st.
Proof.
  pose proof (fs_fonts _ fonts_ok (latin_set st)) as Hf. pose proof (widths st) as Hw. unfold widths_ok in Hw.
  set (f := blitstr_fonts (latin_set st)) in *. clearbody f. destruct s as [|ch t]; [discriminate|].
  unfold glyph_for. destruct (find _ (f_blocks f)) as [b|] eqn:Eb; [|discriminate].
  apply find_some in Eb as [Hin _].
  pose proof (fo_blocks f Hf) as H. rewrite Forall_forall in H. destruct (H b Hin) as [H1 H2 _].
  intros E. destruct (match_limits_ok f b (ch :: t) (b_limits b) off n) as [Hi _]; try assumption; try discriminate.
  rewrite forallb_forall in Hw. specialize (Hw b Hin). rewrite forallb_forall in Hw. apply N.leb_le, Hw, Hi.
Qed.

Lemma choose_width st s off rest known : choose blitstr_fonts st s = (latin_set st, off, rest, known) ->
  gl_w (blitstr_fonts (latin_set st)) off <= widest st.
Proof.
  unfold choose. destruct (glyph_for (blitstr_fonts Emoji) s) as [[o n]|].
  { intros E. injection E as E _ _ _. destruct st; discriminate E. }
  destruct (glyph_for (blitstr_fonts (latin_set st)) s) as [[o n]|] eqn:E2.
  { intros E. injection E as <- _ _. apply (glyph_for_width st s o n E2). }
  destruct (glyph_for (blitstr_fonts Hanzi) s) as [[o n]|].
  { intros E. injection E as E _ _ _. destruct st; discriminate E. }
  pose proof (fs_replacement _ fonts_ok st) as Hr.
  destruct (glyph_for (blitstr_fonts (latin_set st)) replacement) as [[o n]|] eqn:E4; [|congruence].
  intros E. injection E as <- _ _. apply (glyph_for_width st _ o n E4).
Qed.

Definition tall (st : glyphstyle) : N := match st with StSmall => 24 | StRegular => 30 | StBold => 30 end.
Lemma latin_no_larger st s l : shows blitstr_fonts st s l -> Forall (fun g => fst g = latin_set st) (glyphs l) ->
  Forall (no_larger blitstr_fonts (widest st) (tall st)) (glyphs l).
Proof.
  induction 1 as [|t l _ IH|ch t gs off rest known l Hne E Hk _ IH]; intros Hl.
  - constructor.
  - exact (IH Hl).
  - cbn [glyphs flat_map app] in *. inversion Hl as [|x y H1 H2]; subst x y. cbn [fst] in H1. subst gs.
    constructor; [|exact (IH H2)]. split; cbn [fst snd]; [exact (choose_width st _ off rest known E)|].
    destruct st; apply N.le_refl.
Qed.

Lemma paint_room_latin m fb clip c st s l :
  cfg_ok m -> is_frbuf fb -> paintable clip -> 36 <= clip_width clip -> cursor_fits m blitstr_fonts c s ->
  shows blitstr_fonts st s l -> Forall (fun g => fst g = latin_set st) (glyphs l) -> line_height c <= tall st ->
  room (widest st) (tall st) clip c (newlines s) (others s) ->
  exists ps fb' c', paint_str m blitstr_fonts fb clip c st s = Ret (fb', c') /\ is_frbuf fb' /\
    map (fun p => (p_set p, p_off p)) ps = glyphs l /\ Forall (all_inside blitstr_fonts clip) ps /\
    forall x y, x < STORED_WIDTH -> y < LINES -> pixel fb' x y = xorb (pixel fb x y) (stamped blitstr_fonts ps x y).
Proof.
  intros Hm Hfb Hclip Hw Hc Hs Hl Hh Hroom. destruct (shows_count _ st s l fonts_ok Hs) as [N1 N2].
  destruct (paint_room m blitstr_fonts fb clip c st s l (widest st) (tall st) Hm fonts_ok Hfb Hclip Hw Hc Hs
              (latin_no_larger st s l Hs Hl)) as (ps & fb' & c' & P1 & P2 & P3 & P4 & _ & P6).
  - destruct st; vm_compute; discriminate.
  - exact Hh.
  - exact (room_le _ _ _ _ _ _ _ _ N1 N2 Hroom).
  - exists ps, fb', c'. repeat (split; [assumption|]). exact P6.
Qed.

(** ** The whole screen *)
Definition screen : cliprect := cliprect_new 0 0 336 536.
Definition corner : cursor := Cursor (Pt 0 0) 0.
Lemma str_len_le s : str_len s <= 4 * N.of_nat (length s).
Proof.
  induction s as [|c t IH]; [apply N.le_refl|]. cbn [str_len length]. unfold len_utf8.
  destruct (c <? 128); [lia|]. destruct (c <? 2048); [lia|]. destruct (c <? 65536); lia.
Qed.
Lemma tallest_32 : tallest blitstr_fonts = 32.
Proof. vm_compute. reflexivity. Qed.
Lemma corner_fits m s : cfg_ok m -> (length s <= 1000)%nat -> cursor_fits m blitstr_fonts corner s.
Proof.
  intros Hm Hs. pose proof (str_len_le s). unfold cursor_fits, corner. cbn [cx cy cpt px py line_height]. rewrite tallest_32.
  assert (2 ^ 32 <= usize_limit m) by (revert m Hm; apply all_cfgs; vm_compute; discriminate).
  change (2 ^ 32) with 4294967296 in *. lia.
Qed.
Lemma no_newlines s : ~ In 10 s -> newlines s = 0.
Proof.
  intros H. unfold newlines. replace (filter (N.eqb 10) s) with (@nil N); [reflexivity|].
  induction s as [|c t IH]; [reflexivity|]. cbn [filter]. destruct (N.eqb_spec 10 c); [subst; exfalso; apply H; left; reflexivity|].
  apply IH. intros X; apply H; right; exact X.
Qed.
Lemma others_le s : others s <= N.of_nat (length s).
Proof.
  unfold others. induction s as [|c t IH]; [apply N.le_refl|]. cbn [filter]. destruct (negb (c =? 10)); cbn [length]; lia.
Qed.
Lemma screen_room w h n s : w + 3 < 336 -> ~ In 10 s -> N.of_nat (length s) <= n ->
  (h + 1) * ((n - 1) / (335 / (w + 3))) + h <= 536 -> room w h screen corner (newlines s) (others s).
Proof.
  intros Hw Hs Hn H. rewrite (no_newlines s Hs). pose proof (others_le s) as Ho.
  assert (1 <= 335 / (w + 3)) by (apply N.div_le_lower_bound; lia).
  unfold room, new_lines, used_up, per_line. change (clip_width screen) with 336. change (cx corner) with 0. change (cy corner) with 0.
  change (px (cmin screen)) with 0. change (py (cmin screen)) with 0. change (py (cmax screen)) with 536.
  change (336 - 1) with 335. change (0 - 0) with 0. rewrite !N.add_0_l. split; [exact Hw|split; [lia|]].
  rewrite (N.div_small (w + 2) (w + 3)) by lia. rewrite N.min_0_r, N.add_0_l.
  assert ((others s - 1) / (335 / (w + 3)) <= (n - 1) / (335 / (w + 3))) as D by (apply N.div_le_mono; lia).
  apply (N.mul_le_mono_l _ _ (h + 1)) in D. lia.
Qed.

Lemma screen_holds m fb st s : cfg_ok m -> is_frbuf fb -> segmented blitstr_fonts st s -> ~ In 10 s -> (length s <= 144)%nat ->
  exists l ps fb' c', shows blitstr_fonts st s l /\ paint_str m blitstr_fonts fb screen corner st s = Ret (fb', c') /\
    map (fun p => (p_set p, p_off p)) ps = glyphs l /\ Forall (all_inside blitstr_fonts screen) ps /\
    forall x y, x < STORED_WIDTH -> y < LINES -> pixel fb' x y = xorb (pixel fb x y) (stamped blitstr_fonts ps x y).
Proof.
  intros Hm Hfb Hseg Hnl Hn.
  destruct (paint_room_chars m blitstr_fonts fb screen corner st s Hm fonts_ok Hfb) as (l & ps & fb' & c' & P1 & P2 & _ & P4 & P5 & _ & P7).
  - split; [split|]; vm_compute; congruence.
  - apply corner_fits; [exact Hm|lia].
  - exact Hseg.
  - rewrite tallest_32. vm_compute. discriminate.
  - rewrite tallest_32. apply (screen_room 32 32 144); [lia|exact Hnl|lia|vm_compute; discriminate].
  - exists l, ps, fb', c'. repeat (split; [assumption|]). exact P7.
Qed.

(** 145 glyphs of 32 columns *)
Definition block_of (gs : glyphset) (ch : N) : option block :=
  find (fun b => (b_low b <=? ch) && (ch <=? b_high b)) (f_blocks (blitstr_fonts gs)).
Lemma block_none gs ch t : block_of gs ch = None -> glyph_for (blitstr_fonts gs) (ch :: t) = None.
Proof. unfold glyph_for, block_of. intros ->. reflexivity. Qed.
Lemma block_single gs ch t off n : match block_of gs ch with Some b => b_limits b = [1] | None => False end ->
  glyph_for (blitstr_fonts gs) [ch] = Some (off, n) -> glyph_for (blitstr_fonts gs) (ch :: t) = Some (off, 1%nat).
Proof.
  unfold glyph_for, block_of. destruct (find _ _) as [b|]; [|contradiction]. intros ->. cbn [match_limits].
  rewrite !grapheme_cluster_spec. cbn [fst]. change (N.to_nat 1) with 1%nat. cbn [firstn length Nat.min].
  destruct (index_of _ _); [|discriminate]. intros E. injection E as <- _. destruct (length t); reflexivity.
Qed.
Definition one_off : N := match glyph_for (blitstr_fonts Hanzi) [0x4E00] with Some (off, _) => off | None => 0 end.
Lemma one_glyph : glyph_for (blitstr_fonts Hanzi) [0x4E00] = Some (one_off, 1%nat).
Proof. vm_compute. reflexivity. Qed.
Lemma one_choose t : choose blitstr_fonts StRegular (0x4E00 :: t) = (Hanzi, one_off, t, true).
Proof.
  unfold choose. rewrite (block_none Emoji 0x4E00 t) by (vm_compute; reflexivity).
  change (latin_set StRegular) with Regular. rewrite (block_none Regular 0x4E00 t) by (vm_compute; reflexivity).
  rewrite (block_single Hanzi 0x4E00 t one_off 1%nat); [reflexivity| |exact one_glyph].
  vm_compute. reflexivity.
Qed.
Lemma one_segmented n : segmented blitstr_fonts StRegular (repeat 0x4E00 n).
Proof.
  induction n as [|n IH]; [constructor|]. cbn [repeat]. econstructor; [discriminate|apply one_choose|exact IH].
Qed.

(** A character over and over *)
Fixpoint row_of (sm mh w y : N) (gs : glyphset) (off : N) (clip : cliprect) (k : nat) (c : cursor) : list placed * cursor :=
  match k with
  | O => ([], c)
  | S k' =>
      let c := Cursor (Pt (N.max (cx c) (px (cmin clip))) (cy c)) (line_height c) in
      let c := if px (cmax clip) <=? cx c + w + 3 then Cursor (Pt (px (cmin clip)) (cy c + N.max sm (line_height c) + 1)) 0 else c in
      if py (cmax clip) <? cy c + y then ([], c)
      else let '(ps, c') := row_of sm mh w y gs off clip k' (Cursor (Pt (cx c + w + 3) (cy c)) (N.max (line_height c) mh)) in
           (Placed gs off (cx c + 1) (cy c + y) :: ps, c')
  end.
Lemma layout_row F clip st ch gs off : ch <> 10 -> (forall t, choose F st (ch :: t) = (gs, off, t, true)) ->
  forall n k c, (k <= n)%nat -> layout n F clip st c (repeat ch k) =
    row_of (f_max_height (F Small)) (f_max_height (F gs)) (gl_w (F gs) off) (gl_y (F gs) off) gs off clip k c.
Proof.
  intros Hne Hch. apply N.eqb_neq in Hne. induction n as [|n IH]; intros k c Hk.
  { destruct k; [reflexivity|lia]. }
  destruct k as [|k]; [reflexivity|]. cbn [repeat layout row_of]. rewrite Hne, Hch.
  cbv zeta. unfold seek, placed_at, break_line, after. cbn [p_y cy cx cpt px py line_height].
  match goal with |- (if ?a then _ else _) = (if ?b then _ else _) => change a with b; destruct b end; [reflexivity|].
  rewrite IH by lia. reflexivity.
Qed.

Lemma one_numbers : f_max_height (blitstr_fonts Small) = 24 /\ f_max_height (blitstr_fonts Hanzi) = 32 /\
  gl_w (blitstr_fonts Hanzi) one_off = 32 /\ gl_y (blitstr_fonts Hanzi) one_off = 0.
Proof. vm_compute. repeat split. Qed.

(** Its first eight rows are blank *)
Lemma one_rows : forallb (fun k => font_word (blitstr_fonts Hanzi) (one_off + 1 + k) =? 0) [0; 1; 2; 3; 4; 5; 6; 7] = true.
Proof. vm_compute. reflexivity. Qed.
Lemma last_blank x y : ink blitstr_fonts screen (Placed Hanzi one_off 1 528) x y = false.
Proof.
  destruct one_numbers as (_ & _ & W3 & _). pose proof one_rows as Z. rewrite forallb_forall in Z.
  unfold ink. cbn [p_set p_off p_x p_y]. rewrite W3. change (py (cmax screen)) with 536.
  unfold glyph_pixel, stream_bit. rewrite W3.
  set (f := blitstr_fonts Hanzi) in *. clearbody f. set (o := one_off) in *. clearbody o.
  destruct (in_rect 1 528 (1 + 32) (528 + gl_h f o) x y) eqn:E; [|reflexivity].
  destruct (N.ltb_spec y 536) as [Hy|Hy]; [|rewrite !andb_false_r; reflexivity].
  unfold in_rect in E. rewrite !andb_true_iff in E. destruct E as [[[E1 E2] E3] E4].
  apply N.leb_le in E1, E3. apply N.ltb_lt in E2.
  replace (((y - 528) * 32 + (32 - 1 - (x - 1))) / 32) with (y - 528)
    by (apply (N.div_unique _ 32 (y - 528) (32 - 1 - (x - 1))); lia).
  specialize (Z (y - 528)). assert (H : font_word f (o + 1 + (y - 528)) = 0).
  { apply N.eqb_eq, Z. assert (y - 528 = 0 \/ y - 528 = 1 \/ y - 528 = 2 \/ y - 528 = 3 \/ y - 528 = 4 \/ y - 528 = 5 \/ y - 528 = 6 \/ y - 528 = 7) as Y by lia.
    cbn [In]. intuition auto. }
  rewrite H, N.bits_0, !andb_false_r. reflexivity.
Qed.

Lemma screen_full m fb : cfg_ok m -> is_frbuf fb ->
  let s n := repeat 0x4E00 n in
  (forall n, segmented blitstr_fonts StRegular (s n)) /\
  exists fb' c' fb2 c2, paint_str m blitstr_fonts fb screen corner StRegular (s 144%nat) = Ret (fb', c') /\
    paint_str m blitstr_fonts fb screen corner StRegular (s 145%nat) = Ret (fb2, c2) /\
    forall x y, x < STORED_WIDTH -> y < LINES -> pixel fb2 x y = pixel fb' x y.
Proof.
  intros Hm Hfb s. split; [exact one_segmented|].
  assert (P : paintable screen) by (split; [split|]; vm_compute; congruence).
  assert (Q : 36 <= clip_width screen) by (vm_compute; discriminate).
  destruct one_numbers as (W1 & W2 & W3 & W4).
  assert (R : forall n, (n <= 145)%nat ->
    let '(ps, c') := row_of 24 32 32 0 Hanzi one_off screen n corner in
    exists fb', paint_str m blitstr_fonts fb screen corner StRegular (s n) = Ret (fb', c') /\
      forall x y, x < STORED_WIDTH -> y < LINES -> pixel fb' x y = xorb (pixel fb x y) (inked blitstr_fonts screen ps x y)).
  { intros n Hn. assert (Ln : length (s n) = n) by apply repeat_length.
    assert (Hf : cursor_fits m blitstr_fonts corner (s n)) by (apply corner_fits; [exact Hm|lia]).
    assert (Hl : (length (s n) <= N.to_nat (str_len (s n)))%nat) by (pose proof (str_len_ge (s n)); lia). rewrite Ln in Hl.
    pose proof (paint_refines m blitstr_fonts fb screen corner StRegular (s n) Hm fonts_ok Hfb P Q Hf) as R.
    unfold s in R at 2. rewrite (layout_row blitstr_fonts screen StRegular 0x4E00 Hanzi one_off ltac:(discriminate) one_choose _ n corner Hl) in R.
    rewrite W1, W2, W3, W4 in R. destruct (row_of 24 32 32 0 Hanzi one_off screen n corner) as [ps c'].
    destruct R as (fb' & R1 & _ & R2). exists fb'. split; assumption. }
  assert (R1 := R 144%nat ltac:(repeat constructor)). assert (R2 := R 145%nat ltac:(repeat constructor)). clear R W1 W2 W3 W4.
  assert (E : forall off, fst (row_of 24 32 32 0 Hanzi off screen 145 corner) = fst (row_of 24 32 32 0 Hanzi off screen 144 corner) ++ [Placed Hanzi off 1 528])
    by (intros off; vm_compute; reflexivity).
  specialize (E one_off).
  destruct (row_of 24 32 32 0 Hanzi one_off screen 144 corner) as [ps1 c1].
  destruct (row_of 24 32 32 0 Hanzi one_off screen 145 corner) as [ps2 c2]. cbn [fst] in E. subst ps2.
  destruct R1 as (fb1 & E1 & H1). destruct R2 as (fb2 & E2 & H2).
  exists fb1, c1, fb2, c2. split; [exact E1|split; [exact E2|]]. intros x y Hx Hy. rewrite H1, H2 by assumption.
  rewrite inked_app. cbn [inked]. rewrite last_blank, !xorb_false_r. reflexivity.
Qed.
