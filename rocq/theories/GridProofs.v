(** * Glyphs of one width stand on a grid: proofs *)
From Coq Require Import ZArith.
From Verif Require Import PrimFacts Geom Str FontDefs Blit Spec SpecPaint SpecText TextProofs SpecRoom SpecGrid Fonts FontsOk FontCheck PaintRow RoomProofs.

Lemma line_cells w clip : w + 3 < clip_width clip ->
  1 <= per_line w clip /\ (w + 3) * per_line w clip < clip_width clip /\ clip_width clip <= (w + 3) * (per_line w clip + 1).
Proof.
  intros H. unfold per_line. repeat split.
  - apply N.div_le_lower_bound; lia.
  - pose proof (N.mul_div_le (clip_width clip - 1) (w + 3)). lia.
  - pose proof (N.mul_succ_div_gt (clip_width clip - 1) (w + 3)). lia.
Qed.

Section Grid.
  Context (F : fontset) (clip : cliprect) (st : glyphstyle) (w h y0 : N).
  Context (HF : fontset_ok F) (Hw : w + 3 < clip_width clip) (Hsmall : f_max_height (F Small) <= h).
  Let K := per_line w clip.
  Let X := px (cmin clip).

  Lemma grid_step : 1 <= K /\ (w + 3) * K < clip_width clip /\ clip_width clip <= (w + 3) * (K + 1).
  Proof.
    exact (line_cells w clip Hw).
  Qed.

  (** The cursor after [r] glyphs of row [q] *)
  Definition at_cell (q r : N) (c : cursor) : Prop :=
    cy c = y0 + (h + 1) * q /\
    ((r = 0 /\ q = 0 /\ cx c <= X /\ line_height c <= h) \/ (1 <= r <= K /\ cx c = X + (w + 3) * r /\ line_height c = h)).

  Definition cell (i : N) (p : placed) : Prop :=
    p_x p = X + (w + 3) * (i mod K) + 1 /\ p_y p = y0 + (h + 1) * (i / K) + gl_y (F (p_set p)) (p_off p).

  Lemma layout_grid s l : shows F st s l -> breaks l = 0 -> Forall (exactly F w h) (glyphs l) ->
    forall n q r c, (length s <= n)%nat -> at_cell q r c -> fits n F clip st c s = true ->
    let '(ps, c') := layout n F clip st c s in
    length ps = length (glyphs l) /\
    (forall k p, nth_error ps k = Some p -> cell (K * q + r + N.of_nat k) p) /\
    exists q' r', K * q' + r' = K * q + r + N.of_nat (length (glyphs l)) /\ at_cell q' r' c'.
  Proof.
    intros Hs. destruct grid_step as (P1 & P2 & P3). unfold clip_width in P2, P3. fold X in P2, P3.
    induction Hs as [|t l Ht IH|ch t gs off rest known l Hne Ech Hk Hr IH]; intros Hb Hl n q r c Hn Hc Hf.
    - replace (layout n F clip st c []) with (@nil placed, c) by (destruct n; reflexivity).
      split; [reflexivity|]. split; [intros [|k] p E; discriminate E|]. exists q, r. split; [cbn; lia|exact Hc].
    - rewrite breaks_none in Hb. lia.
    - rewrite breaks_some in Hb. destruct n as [|n]; [cbn [length] in Hn; lia|].
      assert (Hlen : (length rest <= n)%nat).
      { destruct (choose_rest F st ch t gs off rest known HF Ech Hk) as [k ->]. rewrite skipn_length. cbn [length] in Hn. lia. }
      cbn [glyphs flat_map app length] in *. fold (glyphs l) in *.
      inversion Hl as [|a b [Hgw Hgh] Hl']; subst a b. cbn [fst snd] in *.
      cbn [layout fits] in *. apply N.eqb_neq in Hne. rewrite Hne, Ech in *. cbv zeta in *.
      apply andb_true_iff in Hf as [Hy Hf]. apply N.leb_le in Hy. rewrite Hgw in *.
      assert (S : exists q1 r1, r1 < K /\ K * q1 + r1 = K * q + r /\
                cx (seek F clip c w) = X + (w + 3) * r1 /\ cy (seek F clip c w) = y0 + (h + 1) * q1 /\
                line_height (seek F clip c w) <= h).
      { destruct Hc as [Cy Cx]. unfold seek. set (c0 := Cursor _ _).
        assert (cx c0 = N.max (cx c) X) as E1 by reflexivity. assert (cy c0 = cy c) as E2 by reflexivity.
        assert (line_height c0 = line_height c) as E3 by reflexivity. clearbody c0.
        destruct Cx as [(-> & -> & Cx & Ch)|(Cr & Cx & Ch)].
        - destruct (N.leb_spec (px (cmax clip)) (cx c0 + w + 3)) as [L|L]; [exfalso; unfold clip_width in Hw; fold X in Hw; lia|].
          exists 0, 0. rewrite E1, E2, E3. repeat split; lia.
        - destruct (N.eq_dec r K) as [->|Nr].
          + destruct (N.leb_spec (px (cmax clip)) (cx c0 + w + 3)) as [L|L]; [|exfalso; lia].
            exists (q + 1), 0. unfold break_line. cbn [cx cy cpt px py line_height]. fold (cx c0). change (py (cpt c0)) with (cy c0).
            rewrite E2, E3, Cy. fold X. repeat split; lia.
          + destruct (N.leb_spec (px (cmax clip)) (cx c0 + w + 3)) as [L|L].
            * exfalso. assert ((w + 3) * (r + 1) <= (w + 3) * K) by (apply N.mul_le_mono_l; lia). lia.
            * exists q, r. rewrite E1, E2, E3. repeat split; lia. }
      destruct S as (q1 & r1 & S1 & S2 & S3 & S4 & S5). set (c1 := seek F clip c w) in *. clearbody c1.
      destruct (N.ltb_spec (py (cmax clip)) (p_y (placed_at F gs off c1))); [lia|].
      assert (A : at_cell q1 (r1 + 1) (after F gs off c1)).
      { split; [exact S4|]. right. unfold after. cbn [cx cy cpt px py line_height]. rewrite Hgw, Hgh. repeat split; lia. }
      specialize (IH Hb Hl' n q1 (r1 + 1) (after F gs off c1) Hlen A Hf).
      destruct (layout n F clip st (after F gs off c1) rest) as [ps c']. destruct IH as (I1 & I2 & q' & r' & I3 & I4).
      split; [cbn [length]; rewrite I1; reflexivity|]. split.
      + intros [|k] p E.
        * cbn [nth_error] in E. injection E as <-. unfold cell. cbn [placed_at p_x p_y p_set p_off].
          replace (K * q + r + N.of_nat 0) with (K * q1 + r1) by lia.
          rewrite <- (N.mod_unique _ K q1 r1 S1 eq_refl), <- (N.div_unique _ K q1 r1 S1 eq_refl). lia.
        * cbn [nth_error] in E. specialize (I2 k p E). replace (K * q + r + N.of_nat (S k)) with (K * q1 + (r1 + 1) + N.of_nat k) by lia. exact I2.
      + exists q', r'. split; [lia|exact I4].
  Qed.
End Grid.

Lemma exactly_no_larger F w h l : Forall (exactly F w h) l -> Forall (no_larger F w h) l.
Proof. apply Forall_impl. intros g [E1 E2]. split; lia. Qed.

Lemma left_used w clip c : cx c <= px (cmin clip) -> used_up w clip c = 0.
Proof.
  intros H. unfold used_up. replace (cx c - px (cmin clip)) with 0 by lia. rewrite N.add_0_l, (N.div_small (w + 2)) by lia. apply N.min_0_r.
Qed.

Lemma paint_grid m F fb clip c st s l w h :
  cfg_ok m -> fontset_ok F -> is_frbuf fb -> paintable clip -> 36 <= clip_width clip -> cursor_fits m F c s ->
  cx c <= px (cmin clip) -> shows F st s l -> breaks l = 0 -> Forall (exactly F w h) (glyphs l) ->
  f_max_height (F Small) <= h -> line_height c <= h ->
  room w h clip c 0 (N.of_nat (length (glyphs l))) ->
  exists ps fb' c', paint_str m F fb clip c st s = Ret (fb', c') /\
    map (fun p => (p_set p, p_off p)) ps = glyphs l /\ Forall (all_inside F clip) ps /\ on_grid F w h clip (cy c) ps /\
    cy c' = cy c + (h + 1) * ((N.of_nat (length (glyphs l)) - 1) / per_line w clip) /\
    forall x y, x < STORED_WIDTH -> y < LINES -> pixel fb' x y = xorb (pixel fb x y) (stamped F ps x y).
Proof.
  intros Hm HF Hfb Hclip Hw Hc Hx Hs Hb Hl Hsm Hh Hroom. pose proof Hroom as (R1 & R2 & R3).
  pose proof (str_len_ge s) as Hlen. assert (Hlen' : (length s <= N.to_nat (str_len s))%nat) by lia. clear Hlen.
  assert (K1 : 1 <= per_line w clip) by exact (proj1 (line_cells w clip R1)).
  pose proof (exactly_no_larger F w h _ Hl) as Hn. rewrite <- Hb in R3.
  destruct (layout_room F clip st w h HF R1 Hsm s l Hs Hn _ _ c Hlen' (used_up_at w clip c) Hh R2 R3) as [Hf L].
  assert (A : at_cell clip w h (cy c) 0 0 c).
  { split; [lia|]. left. repeat split; assumption. }
  pose proof (layout_grid F clip st w h (cy c) HF R1 Hsm s l Hs Hb Hl _ 0 0 c Hlen' A Hf) as G.
  pose proof (paint_refines m F fb clip c st s Hm HF Hfb Hclip Hw Hc) as R.
  destruct (layout _ F clip st c s) as [ps c']. destruct R as (fb' & E & _ & Hp).
  destruct L as (L1 & L2 & _). destruct G as (_ & G2 & q' & r' & G3 & G4). exists ps, fb', c'.
  split; [exact E|]. split; [exact L1|]. split; [exact L2|]. split; [|split].
  - intros i p Ei. specialize (G2 i p Ei). unfold cell in G2. rewrite N.mul_0_r, !N.add_0_l in G2. exact G2.
  - destruct G4 as [Gy Gx]. rewrite Gy. f_equal. f_equal. set (g := N.of_nat (length (glyphs l))) in *. clearbody g.
    rewrite N.mul_0_r, !N.add_0_l in G3. destruct Gx as [(-> & -> & _)|(Gr & _)].
    + replace (g - 1) with 0 by lia. rewrite N.div_0_l by lia. reflexivity.
    + apply (N.div_unique _ _ q' (r' - 1)); lia.
  - intros x y Hx' Hy. rewrite (Hp x y Hx' Hy), (inside_stamp F clip ps x y L2). reflexivity.
Qed.

(** ** Hanzi *)
Definition tilesb (f : font) : bool :=
  forallb (fun b => forallb (fun o => match bigarr_get (f_data f) o with Ret v => v =? 0x202000 | Panic => false end) (b_offset b)) (f_blocks f).
Lemma tiles : tilesb (blitstr_fonts Hanzi) = true.
Proof. vm_cast_no_check (eq_refl true). Qed.

Lemma tile_of f s o n : font_ok f -> tilesb f = true -> glyph_for f s = Some (o, n) -> font_word f o = 0x202000.
Proof.
  intros Hf T G. unfold tilesb in T. destruct s as [|ch t]; [discriminate|]. unfold glyph_for in G.
  destruct (find _ (f_blocks f)) as [b|] eqn:Eb; [|discriminate]. apply find_some in Eb as [Hin _].
  pose proof (fo_blocks f Hf) as H. rewrite Forall_forall in H. destruct (H b Hin) as [H1 H2 H3].
  destruct (match_limits_ok f b (ch :: t) (b_limits b) o n) as [Hi _]; try assumption; try discriminate.
  rewrite forallb_forall in T. specialize (T b Hin). rewrite forallb_forall in T. specialize (T o Hi).
  rewrite Forall_forall in H3. pose proof (H3 o Hi) as Ho.
  destruct (bigarr_get (f_data f) o) as [v|] eqn:E; [|discriminate]. apply N.eqb_eq in T. subst v.
  rewrite bigarr_get_ok in E; [injection E as E; exact E|exact (fo_pieces f Hf)|].
  pose proof (go_data _ _ Ho). lia.
Qed.

(** ** Tiles *)
Definition apart (gs : glyphset) : bool :=
  forallb (fun b => (b_high b <? 0x4E00) || (0x9FFF <? b_low b)) (f_blocks (blitstr_fonts gs)).
Lemma no_cjk gs c t : gs <> Hanzi -> 0x4E00 <= c <= 0x9FFF -> glyph_for (blitstr_fonts gs) (c :: t) = None.
Proof.
  intros Hg Hc. assert (A : apart gs = true) by (destruct gs; try congruence; vm_compute; reflexivity).
  unfold apart in A. rewrite forallb_forall in A. unfold glyph_for.
  destruct (find _ (f_blocks (blitstr_fonts gs))) as [b|] eqn:E; [|reflexivity]. exfalso.
  apply find_some in E as [Hin E]. specialize (A b Hin). lia.
Qed.
Lemma hanzi_read c t off : glyph_for (blitstr_fonts Hanzi) [c] = Some (off, 1%nat) -> glyph_for (blitstr_fonts Hanzi) (c :: t) = Some (off, 1%nat).
Proof.
  assert (A : forallb (fun b => match b_limits b with [1] => true | _ => false end) (f_blocks (blitstr_fonts Hanzi)) = true) by (vm_compute; reflexivity).
  intros H. apply (block_single Hanzi c t off 1%nat); [|exact H]. unfold glyph_for in H. unfold block_of.
  destruct (find _ (f_blocks (blitstr_fonts Hanzi))) as [b|] eqn:E; [|discriminate]. apply find_some in E as [Hin _].
  rewrite forallb_forall in A. specialize (A b Hin). destruct (b_limits b) as [|[|[]] []]; try discriminate A. reflexivity.
Qed.
Lemma cjk_choose st c t off : 0x4E00 <= c <= 0x9FFF -> glyph_for (blitstr_fonts Hanzi) [c] = Some (off, 1%nat) ->
  choose blitstr_fonts st (c :: t) = (Hanzi, off, t, true).
Proof.
  intros Hc H. unfold choose. rewrite (no_cjk Emoji c t) by (discriminate || exact Hc).
  rewrite (no_cjk (latin_set st) c t) by (try exact Hc; destruct st; discriminate).
  rewrite (hanzi_read c t off H). reflexivity.
Qed.

Lemma cjk_shows st s : Forall cjk s -> exists l, shows blitstr_fonts st s l /\ breaks l = 0 /\
  Forall2 (fun c g => exists off, g = (Hanzi, off) /\ glyph_for (blitstr_fonts Hanzi) [c] = Some (off, 1%nat)) s (glyphs l).
Proof.
  induction 1 as [|c s [Hc [off Ho]] _ (l & I1 & I2 & I3)].
  - exists []. split; [constructor|]. split; [reflexivity|constructor].
  - exists (Some (Hanzi, off) :: l). split; [|split; [exact I2|]].
    + econstructor; [lia|exact (cjk_choose st c s off Hc Ho)|left; reflexivity|exact I1].
    + cbn [glyphs flat_map app]. constructor; [|exact I3]. exists off. split; [reflexivity|exact Ho].
Qed.

Lemma tile_sizes off : font_word (blitstr_fonts Hanzi) off = 0x202000 ->
  gl_w (blitstr_fonts Hanzi) off = 32 /\ gl_h (blitstr_fonts Hanzi) off = 32 /\ gl_y (blitstr_fonts Hanzi) off = 0.
Proof. unfold gl_w, gl_h, gl_y. intros ->. repeat split; reflexivity. Qed.

Lemma stamped_one F ps i p x y : nth_error ps i = Some p ->
  (forall j q, nth_error ps j = Some q -> j <> i -> stamp F q x y = false) -> stamped F ps x y = stamp F p x y.
Proof.
  revert i; induction ps as [|a ps IH]; intros i Hi Ho; [destruct i; discriminate|]. cbn [stamped].
  destruct i as [|i].
  - injection Hi as ->. replace (stamped F ps x y) with false; [apply xorb_false_r|]. symmetry.
    assert (Z : forall j q, nth_error ps j = Some q -> stamp F q x y = false) by (intros j q E; apply (Ho (S j) q E); discriminate).
    clear -Z. induction ps as [|a ps IH]; [reflexivity|]. cbn [stamped]. rewrite (Z O a eq_refl), IH; [reflexivity|].
    intros j q E. exact (Z (S j) q E).
  - rewrite (Ho O a eq_refl) by discriminate. rewrite xorb_false_l. apply (IH i Hi). intros j q E N. apply (Ho (S j) q E). congruence.
Qed.
Lemma stamped_none F ps x y : (forall j q, nth_error ps j = Some q -> stamp F q x y = false) -> stamped F ps x y = false.
Proof.
  induction ps as [|a ps IH]; intros Z; [reflexivity|]. cbn [stamped]. rewrite (Z O a eq_refl), IH; [reflexivity|].
  intros j q E. exact (Z (S j) q E).
Qed.

Lemma tiles_apart clip c i j x y : 1 <= per_line 32 clip ->
  tile_x clip i <= x < tile_x clip i + 32 -> tile_y clip c i <= y < tile_y clip c i + 32 ->
  tile_x clip j <= x < tile_x clip j + 32 -> tile_y clip c j <= y < tile_y clip c j + 32 -> i = j.
Proof.
  unfold tile_x, tile_y. intros HK. pose proof (N.div_mod (N.of_nat i) (per_line 32 clip) ltac:(lia)) as Di.
  pose proof (N.div_mod (N.of_nat j) (per_line 32 clip) ltac:(lia)) as Dj.
  set (a := N.of_nat i mod _) in *. set (b := N.of_nat j mod _) in *. set (a' := N.of_nat i / _) in *. set (b' := N.of_nat j / _) in *.
  intros H1 H2 H3 H4. assert (a = b) by lia. assert (a' = b') by lia. subst a b a' b'. apply Nat2N.inj. congruence.
Qed.

Lemma paint_tiles m fb clip c st s :
  cfg_ok m -> is_frbuf fb -> paintable clip -> cursor_fits m blitstr_fonts c s -> cx c <= px (cmin clip) -> line_height c <= 32 ->
  Forall cjk s -> room 32 32 clip c 0 (N.of_nat (length s)) ->
  exists fb' c', paint_str m blitstr_fonts fb clip c st s = Ret (fb', c') /\
    (forall i ch, nth_error s i = Some ch -> exists off, glyph_for (blitstr_fonts Hanzi) [ch] = Some (off, 1%nat) /\
      forall x y, x < 32 -> y < 32 ->
        pixel fb' (tile_x clip i + x) (tile_y clip c i + y) =
        xorb (pixel fb (tile_x clip i + x) (tile_y clip c i + y)) (glyph_pixel (blitstr_fonts Hanzi) off x y)) /\
    (forall x y, x < STORED_WIDTH -> y < LINES ->
      (forall i, (i < length s)%nat -> in_rect (tile_x clip i) (tile_y clip c i) (tile_x clip i + 32) (tile_y clip c i + 32) x y = false) ->
      pixel fb' x y = pixel fb x y).
Proof.
  intros Hm Hfb Hclip Hc Hx Hh Hs Hroom. destruct (cjk_shows st s Hs) as (l & S1 & S2 & S3).
  assert (Ln : length (glyphs l) = length s) by (clear -S3; induction S3; cbn [length]; congruence).
  assert (W : forall i ch, nth_error s i = Some ch -> exists off, nth_error (glyphs l) i = Some (Hanzi, off) /\
    glyph_for (blitstr_fonts Hanzi) [ch] = Some (off, 1%nat) /\ font_word (blitstr_fonts Hanzi) off = 0x202000).
  { clear -S3 Hs. intros i ch. revert i. induction S3 as [|a g s' gl (off & -> & Ho) _ IH]; intros [|i] E; try discriminate E.
    - injection E as ->. exists off. split; [reflexivity|]. split; [exact Ho|].
      inversion Hs as [|? ? [Hr _] _]; subst. exact (tile_of _ [ch] off 1%nat (fs_fonts _ fonts_ok Hanzi) tiles Ho).
    - inversion Hs; subst. apply (IH ltac:(assumption) i E). }
  assert (Ex : Forall (exactly blitstr_fonts 32 32) (glyphs l)).
  { apply Forall_forall. intros g Hg. apply In_nth_error in Hg as [i Hi].
    assert (Li : (i < length s)%nat) by (rewrite <- Ln; apply nth_error_Some; congruence).
    destruct (nth_error s i) as [ch|] eqn:Ei; [|apply nth_error_None in Ei; lia].
    destruct (W i ch Ei) as (off & E1 & _ & E2). rewrite Hi in E1. injection E1 as ->.
    split; [exact (proj1 (tile_sizes off E2))|vm_compute; reflexivity]. }
  assert (Sm : f_max_height (blitstr_fonts Small) <= 32) by (vm_compute; discriminate).
  pose proof Hroom as [Hw _]. pose proof (proj1 (line_cells 32 clip Hw)) as HK.
  rewrite <- Ln in Hroom.
  destruct (paint_grid m blitstr_fonts fb clip c st s l 32 32 Hm fonts_ok Hfb Hclip ltac:(lia) Hc Hx S1 S2 Ex Sm Hh Hroom)
    as (ps & fb' & c' & P1 & P2 & P3 & P4 & _ & P5).
  exists fb', c'. split; [exact P1|].
  assert (Lp : length ps = length s) by (rewrite <- Ln, <- P2, map_length; reflexivity).
  assert (T : forall i p, nth_error ps i = Some p -> exists ch off, nth_error s i = Some ch /\
    glyph_for (blitstr_fonts Hanzi) [ch] = Some (off, 1%nat) /\ p = Placed Hanzi off (tile_x clip i) (tile_y clip c i) /\
    font_word (blitstr_fonts Hanzi) off = 0x202000).
  { intros i p Hi. assert (Li : (i < length s)%nat) by (rewrite <- Lp; apply nth_error_Some; congruence).
    destruct (nth_error s i) as [ch|] eqn:Ei; [|apply nth_error_None in Ei; lia].
    destruct (W i ch Ei) as (off & E1 & E2 & E3). exists ch, off. split; [reflexivity|]. split; [exact E2|].
    split; [|exact E3]. rewrite <- P2 in E1. pose proof (map_nth_error (fun p => (p_set p, p_off p)) i ps Hi) as E4.
    rewrite E1 in E4. destruct p as [gs o px0 py0]. cbn [p_set p_off] in E4. injection E4 as <- <-.
    destruct (P4 i _ Hi) as [G1 G2]. cbn [p_x p_y p_set p_off] in G1, G2. rewrite (proj2 (proj2 (tile_sizes off E3))) in G2.
    unfold tile_x, tile_y. f_equal; [exact G1|]. rewrite G2. apply N.add_0_r. }
  assert (O : forall i p x y, nth_error ps i = Some p ->
    in_rect (tile_x clip i) (tile_y clip c i) (tile_x clip i + 32) (tile_y clip c i + 32) x y = false -> stamp blitstr_fonts p x y = false).
  { intros i p x y Hi Hr. destruct (T i p Hi) as (ch & off & _ & _ & -> & E3). destruct (tile_sizes off E3) as (E4 & E5 & _).
    unfold stamp. cbn [p_set p_off p_x p_y]. rewrite E4, E5, Hr. reflexivity. }
  assert (NotIn : forall i j x y, i <> j -> tile_x clip i <= x < tile_x clip i + 32 -> tile_y clip c i <= y < tile_y clip c i + 32 ->
    in_rect (tile_x clip j) (tile_y clip c j) (tile_x clip j + 32) (tile_y clip c j + 32) x y = false).
  { intros i j x y N H1 H2. destruct (in_rect _ _ _ _ x y) eqn:R; [|reflexivity]. exfalso. apply N.
    unfold in_rect in R. rewrite !andb_true_iff, !N.leb_le, !N.ltb_lt in R. destruct R as [[[R1 R2] R3] R4].
    apply (tiles_apart clip c i j x y HK H1 H2); split; assumption. }
  split.
  - intros i ch Hi. assert (Li : (i < length ps)%nat) by (rewrite Lp; apply nth_error_Some; congruence).
    destruct (nth_error ps i) as [p|] eqn:Ep; [|apply nth_error_None in Ep; lia].
    destruct (T i p Ep) as (ch' & off & E1 & E2 & E & E3). rewrite Hi in E1. injection E1 as <-.
    exists off. split; [exact E2|]. intros x y Hx' Hy'. destruct (tile_sizes off E3) as (E4 & E5 & _).
    assert (In : all_inside blitstr_fonts clip p).
    { rewrite Forall_forall in P3. apply P3. exact (nth_error_In _ _ Ep). }
    subst p. destruct In as (_ & I1 & _ & I2). cbn [p_set p_off p_x p_y] in I1, I2. rewrite E4 in I1. rewrite E5 in I2.
    destruct Hclip as [[_ Hc1] Hc2].
    rewrite P5; [|unfold WIDTH, STORED_WIDTH in *; lia|lia]. f_equal.
    rewrite (stamped_one blitstr_fonts ps i _ _ _ Ep).
    + unfold stamp. cbn [p_set p_off p_x p_y]. rewrite E4, E5.
      replace (in_rect _ _ _ _ _ _) with true by (symmetry; unfold in_rect; rewrite !andb_true_iff, !N.leb_le, !N.ltb_lt; lia).
      cbn [andb]. f_equal; lia.
    + intros j q Hj N. apply (O j q _ _ Hj). apply (NotIn i); lia || congruence.
  - intros x y Hx' Hy' Hn. rewrite P5 by assumption. rewrite stamped_none; [apply xorb_false_r|].
    intros j q Hj. apply (O j q _ _ Hj). apply Hn. rewrite <- Lp. apply nth_error_Some. congruence.
Qed.

Lemma screen_tiles m fb st s :
  cfg_ok m -> is_frbuf fb -> Forall cjk s -> (length s <= 144)%nat ->
  exists fb' c', paint_str m blitstr_fonts fb screen corner st s = Ret (fb', c') /\
    (forall i ch, nth_error s i = Some ch -> exists off, glyph_for (blitstr_fonts Hanzi) [ch] = Some (off, 1%nat) /\
      forall x y, x < 32 -> y < 32 ->
        let x' := 35 * (N.of_nat i mod 9) + 1 + x in
        let y' := 33 * (N.of_nat i / 9) + y in
        pixel fb' x' y' = xorb (pixel fb x' y') (glyph_pixel (blitstr_fonts Hanzi) off x y)).
Proof.
  intros Hm Hfb Hs Hn.
  assert (R : room 32 32 screen corner 0 (N.of_nat (length s))).
  { apply (room_le 32 32 screen corner 0 0 (N.of_nat (length s)) 144); [apply N.le_refl|lia|].
    vm_compute. repeat split; discriminate. }
  assert (P : paintable screen) by (split; [split|]; vm_compute; congruence).
  destruct (paint_tiles m fb screen corner st s Hm Hfb P (corner_fits m s Hm ltac:(lia)) (N.le_refl 0) (N.le_0_l 32) Hs R) as (fb' & c' & E & T & _).
  exists fb', c'. split; [exact E|]. intros i ch Hi. destruct (T i ch Hi) as (off & G & D). exists off. split; [exact G|].
  intros x y Hx Hy. specialize (D x y Hx Hy). unfold tile_x, tile_y in D. change (per_line 32 screen) with 9 in D.
  change (px (cmin screen)) with 0 in D. change (cy corner) with 0 in D. rewrite !N.add_0_l in D. exact D.
Qed.
