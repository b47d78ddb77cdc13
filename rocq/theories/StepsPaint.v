(** * Proofs: the frame buffer when painting or clearing panics *)
From Coq Require Import ZArith.
From Verif Require Import PrimFacts Str Geom FontDefs Blit BlitSteps Spec FbFacts LookupProofs PaintRow PaintProofs LayoutProofs ClearProofs.
From Verif Require Import SpecNarrow NarrowProofs SpecPaint SpecSteps StepsProofs.

Section Row.
  Context (m : cfg) (Hm : cfg_ok m) (f : font) (Hf : font_ok f) (off : N) (Hg : glyph_ok f off).
  Context (clip : cliprect) (x0 y0 : N).
  Hypothesis Hx0 : x0 <= 336.
  Let w := gl_w f off.

  Lemma last_row_steps r fb c :
    is_frbuf fb -> r < gl_h f off -> y0 + r = 535 -> 352 < x0 + w -> py (cmin clip) <= 535 ->
    exists fb',
      xor_row_steps m f clip off w (x0 / 32) ((x0 + w) / 32) (32 - x0 mod 32) y0 r (World fb c) = (World fb' c, Panic) /\
      is_frbuf fb' /\
      forall a, a < 188672 -> lbit fb' a = xorb (lbit fb a)
        (((535 * 352 + x0 <=? a) && (a <? 535 * 352 + x0 + w)) && glyph_pixel f off (a - (535 * 352 + x0)) r).
  Proof.
    intros Hfb Hr Hy Hfit Htop. pose proof (limit_ge m Hm) as HL.
    pose proof (go_w f off Hg) as Hw. fold w in Hw.
    unfold xor_row_steps. rewrite uadd_ok by lia. rewrite run_calc, Hy.
    replace (535 <? py (cmin clip)) with false by lia.
    destruct (row_pattern_spec m f off r Hm Hf Hg Hr) as (p & Ep & Hp & Hbits). fold w in Ep, Hp, Hbits.
    rewrite Ep, run_calc, run_calc. unfold WORDS_PER_LINE.
    rewrite umul_ok by lia. rewrite run_calc. rewrite uadd_ok by lia. rewrite run_calc.
    rewrite usub_ok by lia. rewrite run_calc. rewrite shl32_ok by lia. rewrite run_calc.
    replace (32 - (32 - x0 mod 32)) with (x0 mod 32) by lia.
    rewrite (run_then _ _ _ _ _ (change_ok (535 * 11 + x0 / 32) _ fb c Hfb ltac:(unfold FRAME_BUF_SIZE, WORDS_PER_LINE, LINES; lia))).
    replace (32 - x0 mod 32 <? w) with true by lia.
    rewrite uadd_ok by lia. rewrite run_calc. rewrite shr32_ok by lia. rewrite run_calc.
    set (v1 := N.lxor _ _). set (fb1 := upd fb _ v1).
    assert (Hpb : forall k, N.testbit p k = (k <? w) && glyph_pixel f off k r).
    { intros k. destruct (N.ltb_spec k w); simpl; [apply Hbits; assumption|]. apply (testbit_high p w); assumption. }
    assert (Hv1 : v1 < 2 ^ 32).
    { apply lxor_lt; [apply fb_word_lt; [assumption|lia]|apply w32_lt]. }
    assert (Hfb1 : is_frbuf fb1) by (apply upd_frbuf; assumption).
    exists fb1. split; [|split; [assumption|]].
    - apply change_out; [assumption|]. unfold FRAME_BUF_SIZE, WORDS_PER_LINE, LINES. lia.
    - intros a Ha. unfold fb1. rewrite lbit_upd by (assumption || lia).
      destruct (N.eqb_spec (a / 32) (535 * 11 + x0 / 32)) as [E|E].
      + unfold v1. rewrite N.lxor_spec, w32_testbit, shiftl_testbit, Hpb. unfold lbit. rewrite E. f_equal.
        replace (a mod 32 <? 32) with true by lia. simpl. rewrite andb_assoc.
        replace (a mod 32 - x0 mod 32) with (a - (535 * 352 + x0)) by lia. f_equal. lia.
      + replace ((535 * 352 + x0 <=? a) && (a <? 535 * 352 + x0 + w)) with false by lia. rewrite xorb_false_r. reflexivity.
  Qed.

  Lemma rows_steps ymax fb c :
    is_frbuf fb -> ymax <= gl_h f off -> y0 + ymax = 536 -> 0 < ymax -> 352 < x0 + w -> py (cmin clip) <= 535 ->
    exists fb',
      each 0 ymax (xor_row_steps m f clip off w (x0 / 32) ((x0 + w) / 32) (32 - x0 mod 32) y0) (World fb c) = (World fb' c, Panic) /\
      is_frbuf fb' /\
      forall a, a < 188672 -> lbit fb' a = xorb (lbit fb a)
        ((y0 * 352 + x0 <=? a) &&
         let r := (a - x0) / 352 - y0 in let i := (a - x0) mod 352 in
         (r <? ymax) && (i <? w) && (py (cmin clip) <=? y0 + r) && glyph_pixel f off i r).
  Proof.
    intros Hfb Hym Hy H0 Hfit Htop. pose proof (go_w f off Hg) as Hw. fold w in Hw.
    destruct (xor_rows_spec m Hm f Hf off Hg clip x0 y0 Hx0 (ymax - 1) fb Hfb) as (fb1 & E & Hfb1 & Hb1); try (fold w; lia).
    fold w in E, Hb1.
    assert (E1 : each 0 (ymax - 1) (xor_row_steps m f clip off w (x0 / 32) ((x0 + w) / 32) (32 - x0 mod 32) y0) (World fb c) = (World fb1 c, Ret tt)).
    { apply erase_ret. rewrite (erase_each _ _ _ (xor_row m f clip off w (x0 / 32) ((x0 + w) / 32) (32 - x0 mod 32) y0)) by (intros; apply xor_row_erase).
      rewrite E. reflexivity. }
    destruct (last_row_steps (ymax - 1) fb1 c Hfb1) as (fb' & E2 & Hfb' & Hb'); try lia.
    exists fb'. split; [|split; [assumption|]].
    - rewrite (each_last ymax _ _ H0), (run_then _ _ _ _ _ E1). exact E2.
    - intros a Ha. rewrite Hb', Hb1 by assumption. rewrite xorb_assoc_reverse. f_equal. cbv zeta.
      destruct (N.leb_spec (y0 * 352 + x0) a) as [Hl|Hl]; cbn [andb].
      2:{ replace (535 * 352 + x0 <=? a) with false by lia. reflexivity. }
      destruct (N.eqb_spec ((a - x0) / 352 - y0) (ymax - 1)) as [Er|Er].
      + rewrite Er. replace (ymax - 1 <? ymax - 1) with false by lia. replace (ymax - 1 <? ymax) with true by lia.
        cbn [andb]. rewrite xorb_false_l.
        replace (a - (535 * 352 + x0)) with ((a - x0) mod 352) by lia. f_equal.
        replace (y0 + (ymax - 1)) with 535 by lia. lia.
      + replace ((a - x0) / 352 - y0 <? ymax - 1) with ((a - x0) / 352 - y0 <? ymax) by lia.
        replace ((535 * 352 + x0 <=? a) && (a <? 535 * 352 + x0 + w)) with false by lia. cbn [andb]. apply xorb_false_r.
  Qed.
End Row.

(** ** A glyph that overruns *)
Lemma newline_steps_ok m F clip fb c : 
  N.max (f_max_height (F Small)) (line_height c) + 1 < usize_limit m ->
  cy c + (N.max (f_max_height (F Small)) (line_height c) + 1) < usize_limit m ->
  newline m F clip c = Ret (break_line F clip c) ->
  newline_steps m F clip (World fb c) = (World fb (break_line F clip c), Ret tt).
Proof. intros _ _ E. apply erase_ret. rewrite newline_erase, E. reflexivity. Qed.

Lemma xor_char_stop m F fb clip c s gs off n :
  cfg_ok m -> (forall gs, font_ok (F gs)) -> is_frbuf fb -> paintable clip ->
  room m F c ->
  glyph_for (F gs) s = Some (off, n) ->
  let c1 := seek F clip c (gl_w (F gs) off) in
  let p := placed_at F gs off c1 in
  (py (cmax clip) <? p_y p) = false -> overruns F clip p = true ->
  exists fb',
    xor_char_steps m F clip s gs (World fb c) = (World fb' c1, Panic) /\
    is_frbuf fb' /\ forall a, a < 188672 -> lbit fb' a = xorb (lbit fb a) (lin_ink F clip p a).
Proof.
  intros Hm HF Hfb Hclip [Hrx Hry] Hlk.
  pose proof (limit_ge m Hm) as HL. pose proof (HF gs) as Hf.
  destruct (glyph_for_ok (F gs) s off n Hf Hlk) as [Hg Hn].
  pose proof (go_w _ _ Hg) as Hw. pose proof (go_height _ _ Hg) as Hh. pose proof (go_h _ _ Hg) as Hh1.
  pose proof (fo_height _ Hf) as Hmh. pose proof (tallest_ge F gs) as Htg.
  pose proof (tallest_ge F Small) as Hts. pose proof (tallest_le F HF) as Htl.
  unfold xor_char_steps. rewrite clip_valid_test by assumption.
  rewrite lookup_spec, Hlk by assumption. rewrite run_calc. cbn [lookup_result].
  rewrite header_spec by assumption. rewrite run_calc. cbn [gw gh gy].
  replace (32 <? gl_w (F gs) off) with false by lia.
  destruct c as [[x y] lh]. cbn [cx cy cpt px py line_height] in *.
  unfold paintable, WIDTH, LINES in *.
  set (w := gl_w (F gs) off) in *. set (h := gl_h (F gs) off) in *.
  set (xs := N.max x (px (cmin clip))).
  rewrite run_get. cbn [w_cur cx cy cpt px py line_height].
  assert (Ec : (if x <? px (cmin clip) then set_x (px (cmin clip)) else skip) (World fb (Cursor (Pt x y) lh))
               = (World fb (Cursor (Pt xs y) lh), Ret tt)).
  { unfold xs. destruct (N.ltb_spec x (px (cmin clip)));
      [replace (N.max x (px (cmin clip))) with (px (cmin clip)) by lia|replace (N.max x (px (cmin clip))) with x by lia]; reflexivity. }
  rewrite (run_then _ _ _ _ _ Ec); clear Ec. rewrite run_get. cbn [w_cur cx cy cpt px py line_height].
  rewrite uadd_ok by lia. rewrite run_calc. rewrite uadd_ok by lia. rewrite run_calc.
  rewrite uadd_ok by lia. rewrite run_calc.
  unfold seek. cbn [cx cy cpt px py line_height]. fold w. fold xs.
  replace (px (cmax clip) <=? xs + 1 + w + 2) with (px (cmax clip) <=? xs + w + 3) by lia.
  set (c1 := if px (cmax clip) <=? xs + w + 3 then break_line F clip (Cursor (Pt xs y) lh)
             else Cursor (Pt xs y) lh).
  assert (Hcx : cx c1 + 1 <= 336 /\ (cx c1 + 1 + w <= 336 \/ cx c1 = px (cmin clip))).
  { unfold c1. destruct (N.leb_spec (px (cmax clip)) (xs + w + 3));
      unfold break_line; cbn [cx cy cpt px py line_height]; lia. }
  assert (Hcy : cy c1 + tallest F < usize_limit m).
  { unfold c1. destruct (N.leb_spec (px (cmax clip)) (xs + w + 3));
      unfold break_line; cbn [cx cy cpt px py line_height]; lia. }
  match goal with |- context [andthen (if px (cmax clip) <=? xs + w + 3 then ?a else ?b) ?k (World fb ?d)] =>
    assert (E1 : (if px (cmax clip) <=? xs + w + 3 then a else b) (World fb d) = (World fb c1, Ret (cx c1 + 1))) end.
  { unfold c1 in *. destruct (N.leb_spec (px (cmax clip)) (xs + w + 3)).
    - erewrite run_then; [|apply newline_steps_ok].
      + rewrite run_get. cbn [w_cur]. rewrite uadd_ok by lia. reflexivity.
      + cbn [cx cy cpt px py line_height]; lia.
      + cbn [cx cy cpt px py line_height]; lia.
      + apply newline_spec; cbn [cx cy cpt px py line_height]; lia.
    - reflexivity. }
  rewrite (run_then _ _ _ _ _ E1); clear E1.
  clearbody c1. clear xs.
  rewrite uadd_ok by lia. rewrite run_calc. cbv zeta. rewrite uand1f_mod, !ushr5_div.
  rewrite usub_ok by lia. rewrite run_calc. rewrite run_get. cbn [w_cur].
  rewrite uadd_ok by lia. rewrite run_calc.
  unfold placed_at. cbn [p_y].
  set (yo := gl_y (F gs) off) in *.
  intros Hvis Hov. rewrite Hvis. apply N.ltb_ge in Hvis.
  rewrite uadd_ok by lia. rewrite run_calc.
  set (ym := if cy c1 + yo + h <=? py (cmax clip) then h else py (cmax clip) - (cy c1 + yo)).
  assert (E1 : (if cy c1 + yo + h <=? py (cmax clip) then Ret h
                else usub m (py (cmax clip)) (cy c1 + yo)) = Ret ym).
  { unfold ym. destruct (_ <=? _); [reflexivity|]. apply usub_ok; lia. }
  rewrite E1; clear E1. rewrite run_calc.
  assert (Hym : ym <= h /\ cy c1 + yo + ym <= py (cmax clip) /\
                forall r, (r <? ym) = (r <? h) && (cy c1 + yo + r <? py (cmax clip))).
  { unfold ym. destruct (N.leb_spec (cy c1 + yo + h) (py (cmax clip)));
      (split; [lia|split; [lia|intros r; lia]]). }
  destruct Hym as (Hym1 & Hym2 & Hym3). clearbody ym.
  unfold overruns, STORED_WIDTH, LINES in Hov; cbn [p_set p_off p_x p_y] in Hov; fold w h in Hov.
  destruct (rows_steps m Hm (F gs) Hf off Hg clip (cx c1 + 1) (cy c1 + yo) (proj1 Hcx) ym fb c1 Hfb) as (fb' & E & Hfb' & Hb).
  - exact Hym1.
  - specialize (Hym3 (535 - (cy c1 + yo))). lia.
  - specialize (Hym3 (535 - (cy c1 + yo))). lia.
  - fold w. lia.
  - lia.
  - fold w in E. exists fb'. split; [exact (run_panic _ _ _ _ E)|]. split; [assumption|].
    intros a Ha. rewrite Hb by assumption. unfold lin_ink. cbn [p_set p_off p_x p_y]. cbv zeta.
    rewrite Hym3. fold h w. reflexivity.
Qed.

Lemma xor_char_steps_miss m F fb clip c s gs : xor_char m F fb clip c s gs = Ret (fb, c, None) ->
  xor_char_steps m F clip s gs (World fb c) = (World fb c, Ret None).
Proof. intros E. apply erase_ret. rewrite xor_char_erase. exact E. Qed.

Section Step.
  Context (m : cfg) (F : fontset) (clip : cliprect) (st : glyphstyle).
  Context (Hm : cfg_ok m) (HF : fontset_ok F) (Hclip : paintable clip).

  Lemma step_stop fb c ch t gs off rest known :
    is_frbuf fb -> room m F c -> ch <> 10 -> choose F st (ch :: t) = (gs, off, rest, known) ->
    let c1 := seek F clip c (gl_w (F gs) off) in
    let p := placed_at F gs off c1 in
    (py (cmax clip) <? p_y p) = false -> overruns F clip p = true ->
    exists fb',
      paint_step_steps m F clip st (ch :: t) (World fb c) = (World fb' c1, Panic) /\
      is_frbuf fb' /\ forall a, a < 188672 -> lbit fb' a = xorb (lbit fb a) (lin_ink F clip p a).
  Proof.
    intros Hfb Hroom Hch0 Hch c1 p Hvis Hov. pose proof (fs_fonts F HF) as Hfonts.
    pose proof (xor_char_stop m F fb clip c (ch :: t)) as Hhit.
    unfold choose in Hch.
    assert (X : forall A (a b : A), match ch with 10 => a | _ => b end = b).
    { intros A a b. destruct ch as [|q]; [reflexivity|]. do 4 (destruct q as [q|q|]; try reflexivity). exfalso; apply Hch0; reflexivity. }
    unfold paint_step_steps. rewrite X. clear X.
    destruct (glyph_for (F Emoji) (ch :: t)) as [[o n]|] eqn:E1.
    { injection Hch as <- <- <- <-.
      destruct (Hhit Emoji o n Hm Hfonts Hfb Hclip Hroom E1 Hvis Hov) as (fb' & E & H). exists fb'. split; [exact (run_panic _ _ _ _ E)|exact H]. }
    rewrite (run_then _ _ _ _ _ (xor_char_steps_miss m F fb clip c (ch :: t) Emoji (xor_char_miss m F fb clip c (ch :: t) Emoji Hclip (Hfonts Emoji) E1))).
    destruct (glyph_for (F (latin_set st)) (ch :: t)) as [[o n]|] eqn:E2.
    { injection Hch as <- <- <- <-.
      destruct (Hhit (latin_set st) o n Hm Hfonts Hfb Hclip Hroom E2 Hvis Hov) as (fb' & E & H). exists fb'. split; [exact (run_panic _ _ _ _ E)|exact H]. }
    rewrite (run_then _ _ _ _ _ (xor_char_steps_miss m F fb clip c (ch :: t) (latin_set st) (xor_char_miss m F fb clip c (ch :: t) (latin_set st) Hclip (Hfonts _) E2))).
    destruct (glyph_for (F Hanzi) (ch :: t)) as [[o n]|] eqn:E3.
    { injection Hch as <- <- <- <-.
      destruct (Hhit Hanzi o n Hm Hfonts Hfb Hclip Hroom E3 Hvis Hov) as (fb' & E & H). exists fb'. split; [exact (run_panic _ _ _ _ E)|exact H]. }
    rewrite (run_then _ _ _ _ _ (xor_char_steps_miss m F fb clip c (ch :: t) Hanzi (xor_char_miss m F fb clip c (ch :: t) Hanzi Hclip (Hfonts _) E3))).
    pose proof (fs_replacement F HF st) as Hrep.
    destruct (glyph_for (F (latin_set st)) replacement) as [[o n]|] eqn:E4; [|congruence].
    injection Hch as <- <- <- <-.
    destruct (xor_char_stop m F fb clip c replacement (latin_set st) o n Hm Hfonts Hfb Hclip Hroom E4 Hvis Hov) as (fb' & E & H).
    exists fb'. split; [exact (run_panic _ _ _ _ E)|exact H].
  Qed.

  Lemma loop_stop n : forall fb c s, is_frbuf fb -> room_n m F n c ->
    let '(ps, c', stop) := layout_stop n F clip st c s in
    exists fb', paint_loop_steps n m F clip st s (World fb c) = (World fb' c', if stop then Panic else Ret tt) /\
      is_frbuf fb' /\ forall a, a < 188672 -> lbit fb' a = xorb (lbit fb a) (lin_inked F clip ps a).
  Proof.
    induction n as [|n IH]; intros fb c s Hfb Hroom; cbn [paint_loop_steps layout_stop].
    - exists fb; split; [reflexivity|split; [assumption|]]. intros; cbn [lin_inked]; rewrite xorb_false_r; reflexivity.
    - destruct s as [|ch t].
      { exists fb; split; [reflexivity|split; [assumption|]]. intros; cbn [lin_inked]; rewrite xorb_false_r; reflexivity. }
      destruct (N.eqb_spec ch 10) as [->|Hn].
      + pose proof (room_n_S m F n c Hroom) as [R1 R2]. pose proof (tallest_ge F Small).
        assert (E : paint_step_steps m F clip st (10 :: t) (World fb c) = (World fb (break_line F clip c), Ret t)).
        { apply erase_ret. rewrite paint_step_erase, paint_step_cases. cbn [N.eqb Pos.eqb].
          rewrite newline_spec by lia. cbn [bind].
          change (slice_from (10 :: t) 1) with (slice_from (10 :: t) (str_len (firstn 1 (10 :: t)))).
          rewrite slice_prefix. reflexivity. }
        rewrite (run_then _ _ _ _ _ E). apply IH; [assumption|]. apply (room_break m F clip Hm Hclip); assumption.
      + destruct (choose F st (ch :: t)) as [[[gs off] rest] known] eqn:Ech.
        pose proof (step_glyph_any m F clip st Hm HF Hclip fb c (ch :: t) gs off rest known Hfb
                      (room_n_S m F n c Hroom) ltac:(discriminate) Ech) as Hstep.
        pose proof (step_stop fb c ch t gs off rest known Hfb (room_n_S m F n c Hroom) Hn Ech) as Hstop.
        cbv zeta in Hstep, Hstop |- *.
        set (c1 := seek F clip c (gl_w (F gs) off)) in *.
        assert (Hr1 : room_n m F n c1) by (apply (seek_room m F clip Hm Hclip); assumption).
        assert (Est : paint_step m F clip st fb c (ch :: t) = step_glyph m F clip st c (ch :: t) fb).
        { rewrite paint_step_cases. destruct (N.eqb_spec ch 10); [contradiction|reflexivity]. }
        destruct (py (cmax clip) <? p_y (placed_at F gs off c1)).
        * assert (E : paint_step_steps m F clip st (ch :: t) (World fb c) = (World fb c1, Ret (rest_below (ch :: t) rest known))).
          { apply erase_ret. rewrite paint_step_erase, Est. exact Hstep. }
          rewrite (run_then _ _ _ _ _ E). apply IH; assumption.
        * destruct (overruns F clip (placed_at F gs off c1)) eqn:Hov.
          { destruct (Hstop eq_refl eq_refl) as (fb' & E & Hfb' & Hb). exists fb'. rewrite (run_panic _ _ _ _ E). split; [reflexivity|].
            split; [assumption|]. intros a Ha. rewrite Hb by assumption. cbn [lin_inked]. rewrite xorb_false_r. reflexivity. }
          destruct Hstep as (fb1 & E & Hfb1 & Hb1).
          assert (E1 : paint_step_steps m F clip st (ch :: t) (World fb c) = (World fb1 (after F gs off c1), Ret rest)).
          { apply erase_ret. rewrite paint_step_erase, Est. exact E. }
          rewrite (run_then _ _ _ _ _ E1).
          assert (Hg : glyph_ok (F gs) off) by (eapply (choose_ok F st HF); [|exact Ech]; discriminate).
          specialize (IH fb1 (after F gs off c1) rest Hfb1
            (after_room m F clip Hm Hclip n c1 gs off Hg (seek_x F clip c (gl_w (F gs) off)) Hr1)).
          destruct (layout_stop n F clip st (after F gs off c1) rest) as [[ps c'] stop].
          destruct IH as (fb' & E' & Hfb' & Hb'). exists fb'. rewrite E'. split; [reflexivity|split; [assumption|]].
          intros a Ha. rewrite Hb', Hb1 by assumption. cbn [lin_inked]. apply xorb_assoc_reverse.
  Qed.

  Lemma stop_placed n : forall c s, Forall (placed_ok F clip) (fst (fst (layout_stop n F clip st c s))).
  Proof.
    induction n as [|n IH]; intros c s; cbn [layout_stop]; [constructor|].
    pose proof (layout_any_placed F clip st HF 1 c s) as H1. cbn [layout_any] in H1.
    destruct s as [|ch t]; [constructor|]. destruct (ch =? 10); [apply IH|].
    destruct (choose F st (ch :: t)) as [[[gs off] rest] known]. cbv zeta in *.
    destruct (_ <? _); [apply IH|]. cbn [fst] in H1.
    destruct (overruns F clip _); [exact H1|].
    specialize (IH (after F gs off (seek F clip c (gl_w (F gs) off))) rest).
    destruct (layout_stop n F clip st _ rest) as [[ps c'] stop]. cbn [fst] in *. inversion H1; subst. constructor; assumption.
  Qed.

  Lemma paint_stop fb c s : is_frbuf fb -> cursor_fits m F c s ->
    let '(ps, c', stop) := layout_stop (N.to_nat (str_len s)) F clip st c s in
    exists fb', paint_str_steps m F clip st s (World fb c) = (World fb' c', if stop then Panic else Ret tt) /\
      is_frbuf fb' /\ forall x y, x < STORED_WIDTH -> y < LINES ->
        pixel fb' x y = xorb (pixel fb x y) (inked_over F clip ps x y).
  Proof.
    intros Hfb Hc. pose proof (loop_stop (N.to_nat (str_len s)) fb c s Hfb (cursor_fits_room m F c s Hc)) as H.
    pose proof (stop_placed (N.to_nat (str_len s)) c s) as Hp. unfold paint_str_steps.
    destruct (layout_stop (N.to_nat (str_len s)) F clip st c s) as [[ps c'] stop]. cbn [fst] in Hp.
    destruct H as (fb' & E & Hfb' & Hb). exists fb'. split; [exact E|]. split; [assumption|].
    intros x y Hx Hy. unfold STORED_WIDTH, LINES in *. rewrite !pixel_lbit, Hb by lia.
    rewrite (lin_inked_over F clip ps x y Hclip) by assumption. reflexivity.
  Qed.
End Step.

(** The glyphs are the first ones of [layout_tries], up to the first that overruns *)
Fixpoint until {A} (f : A -> bool) (l : list A) : list A :=
  match l with [] => [] | a :: t => if f a then [a] else a :: until f t end.
Lemma stop_until F clip st n : forall c s,
  fst (fst (layout_stop n F clip st c s)) = until (overruns F clip) (fst (layout_tries n F clip st c s)) /\
  snd (layout_stop n F clip st c s) = existsb (overruns F clip) (fst (layout_tries n F clip st c s)) /\
  (snd (layout_stop n F clip st c s) = false -> fst (layout_stop n F clip st c s) = layout_tries n F clip st c s).
Proof.
  induction n as [|n IH]; intros c s; cbn [layout_stop layout_tries]; [repeat split|].
  destruct s as [|ch t]; [repeat split|]. destruct (ch =? 10); [apply IH|].
  destruct (choose F st (ch :: t)) as [[[gs off] rest] known]. cbv zeta. destruct (_ <? _); [apply IH|].
  specialize (IH (after F gs off (seek F clip c (gl_w (F gs) off))) rest).
  destruct (layout_tries n F clip st _ rest) as [qs d]. destruct (layout_stop n F clip st _ rest) as [[ps c'] stop]. cbn [fst snd] in *.
  destruct IH as (I1 & I2 & I3). cbn [until existsb].
  destruct (overruns F clip _) eqn:Ho; cbn [fst snd orb]; rewrite ?Ho; [repeat split; discriminate|].
  split; [f_equal; exact I1|]. split; [exact I2|]. intros E. specialize (I3 E). injection I3 as -> ->. reflexivity.
Qed.

(** ** A newline that does not fit in usize *)
Lemma newline_panic m F clip st t fb c :
  ovf m = true -> usize_limit m <= cy c + (N.max (f_max_height (F Small)) (line_height c) + 1) ->
  paint_str_steps m F clip st (10 :: t) (World fb c) =
    (World fb (Cursor (Pt (px (cmin clip)) (cy c)) (N.max (f_max_height (F Small)) (line_height c))), Panic).
Proof.
  intros Hm H. unfold paint_str_steps. cbn [str_len]. change (len_utf8 10) with 1.
  destruct (N.to_nat (1 + str_len t)) as [|n] eqn:En; [lia|]. cbn [paint_loop_steps paint_step_steps].
  assert (E : newline_steps m F clip (World fb c) =
    (World fb (Cursor (Pt (px (cmin clip)) (cy c)) (N.max (f_max_height (F Small)) (line_height c))), Panic)).
  { unfold newline_steps, skip, set_x, set_height, set_y, get_cursor, put_cursor, andthen, calc.
    cbn [w_cur w_fb line_height cpt cx cy px py].
    set (k := f_max_height (F Small)) in *. unfold uadd. rewrite Hm.
    destruct (N.ltb_spec (line_height c) k) as [L|L]; cbv beta iota zeta; cbn [w_cur w_fb line_height cpt cx cy px py];
      [replace (N.max k (line_height c)) with k in * by lia|replace (N.max k (line_height c)) with (line_height c) in * by lia];
      repeat match goal with
      | |- context [if ?a <? usize_limit m then _ else _] => destruct (N.ltb_spec a (usize_limit m))
      end; try reflexivity; unfold cy in *; lia. }
  unfold andthen. rewrite E. reflexivity.
Qed.
