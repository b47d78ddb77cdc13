(** * Properties C09 - C18, C22 - C25, C27: paint_str

    [fontset_ok F] says that the font tables are well formed; it holds of the
    fonts of the crate (C28).  [cursor_fits] says that the cursor is so far below
    the largest usize that painting the string cannot overflow it. *)
From Verif Require Import Prim PrimFacts Geom Str FontDefs Blit Spec SpecPaint SpecText.
From Verif Require Import ClearProofs BasicProofs XorProofs LayoutProofs TextProofs FontText PropsClear.

(** ** A concrete call meeting the hypotheses: "Hi\n" and a cat *)
Definition ex_clip : cliprect := cliprect_new 10 10 300 100.
Definition ex_cursor : cursor := Cursor (Pt 10 10) 0.
Definition ex_text : str := [72; 105; 10; 0x1F638].

Example call_ok : forall m, cfg_ok m ->
  fontset_ok blitstr_fonts /\ is_frbuf new_fr_buf /\ paintable ex_clip /\ clip_fits ex_clip /\
  36 <= clip_width ex_clip /\ cursor_fits m blitstr_fonts ex_cursor ex_text.
Proof.
  intros m Hm.
  split; [exact fonts_ok|]. split; [exact new_fr_buf_ok|].
  split; [vm_compute; repeat split; congruence|]. split; [left; reflexivity|].
  split; [vm_compute; congruence|]. revert m Hm.
  apply all_cfgs; split; vm_compute; congruence.
Qed.

(** Its layout: H and i on the first line, the cat on the second. *)
Example call_layout :
  let '(ps, c) := layout (N.to_nat (str_len ex_text)) blitstr_fonts ex_clip StRegular ex_cursor ex_text in
  map (fun p => (p_set p, p_x p, p_y p)) ps = [(Regular, 11, 16); (Regular, 26, 16); (Emoji, 11, 41)] /\
  c = Cursor (Pt 44 41) 32.
Proof. vm_compute. split; reflexivity. Qed.

(** C09 *)
Theorem C09_paint_returns : forall m F fb clip c st s,
  cfg_ok m -> fontset_ok F -> is_frbuf fb ->
  (paintable clip -> clip_fits clip) -> cursor_fits m F c s ->
  exists fb' c', paint_str m F fb clip c st s = Ret (fb', c') /\ is_frbuf fb'.
Proof. exact paint_no_panic. Qed.
Print Assumptions C09_paint_returns.

(** Without the guards it is false: a cursor at usize::MAX panics in a debug build,
    and a clip in the last 16 stored columns that reaches the bottom line makes
    every build index past the end of the frame buffer. *)
Theorem C09_paint_panics_refuted :
  paint_str debug64 blitstr_fonts blank (cliprect_new 0 0 100 100)
            (Cursor (Pt 0xFFFFFFFFFFFFFFFF 0) 0) StRegular [97] = Panic /\
  (forall m, cfg_ok m ->
   paint_str m blitstr_fonts blank (cliprect_new 330 0 336 536)
             (Cursor (Pt 330 480) 0) StRegular [0x1F638] = Panic).
Proof. split; [vm_compute; reflexivity|apply all_cfgs; vm_compute; reflexivity]. Qed.
Print Assumptions C09_paint_panics_refuted.

(** C10 *)
Theorem C10_paint_contained : forall m F fb clip c st s fb' c',
  cfg_ok m -> fontset_ok F -> is_frbuf fb -> 33 <= clip_width clip ->
  cursor_fits m F c s -> paint_str m F fb clip c st s = Ret (fb', c') ->
  forall x y, x < STORED_WIDTH -> y < LINES -> in_clip clip x y = false ->
    pixel fb' x y = pixel fb x y.
Proof. exact paint_contained. Qed.
Print Assumptions C10_paint_contained.

(** With a clip 32 wide it is false: U+1F170 is 32 wide and is drawn one column past
    the right edge.  With a cursor that overflows it is false in a release build. *)
Theorem C10_paint_contained_refuted :
  (forall m, cfg_ok m -> exists r,
     paint_str m blitstr_fonts blank (cliprect_new 0 0 32 100) (Cursor (Pt 0 0) 0) StRegular [0x1F170] = Ret r /\
     (clip_width (cliprect_new 0 0 32 100) = 32 /\ in_clip (cliprect_new 0 0 32 100) 32 29 = false /\
      pixel blank 32 29 = false /\ pixel (fst r) 32 29 = true)) /\
  (exists r,
     paint_str release32 blitstr_fonts blank (cliprect_new 50 0 100 100)
               (Cursor (Pt 0xFFFFFFFF 0) 0) StRegular [0x1F170] = Ret r /\
     (in_clip (cliprect_new 50 0 100 100) 31 4 = false /\
      pixel blank 31 4 = false /\ pixel (fst r) 31 4 = true)).
Proof.
  split.
  - apply all_cfgs; apply (ret_check_ex _ (fun g => pixel (fst g) 32 29));
      try (vm_compute; reflexivity); intros g; rewrite pixel_blank; auto.
  - apply (ret_check_ex _ (fun g => pixel (fst g) 31 4));
      try (vm_compute; reflexivity); intros g; rewrite pixel_blank; auto.
Qed.
Print Assumptions C10_paint_contained_refuted.

(** C11: for all fonts, clips, cursors and build modes *)
Theorem C11_paint_twice_restores : forall m F fb clip c st s fb' c',
  is_frbuf fb -> paint_str m F fb clip c st s = Ret (fb', c') ->
  paint_str m F fb' clip c st s = Ret (fb, c').
Proof. exact paint_twice. Qed.
Print Assumptions C11_paint_twice_restores.

(** C12 *)
Theorem C12_paint_independent_of_contents : forall m F clip c st s fb1 fb2,
  is_frbuf fb1 -> is_frbuf fb2 ->
  (paint_str m F fb1 clip c st s = Panic <-> paint_str m F fb2 clip c st s = Panic) /\
  forall fb1' c1 fb2' c2,
    paint_str m F fb1 clip c st s = Ret (fb1', c1) ->
    paint_str m F fb2 clip c st s = Ret (fb2', c2) ->
    c1 = c2 /\
    forall x y, xorb (pixel fb1 x y) (pixel fb1' x y) = xorb (pixel fb2 x y) (pixel fb2' x y).
Proof. exact paint_independent. Qed.
Print Assumptions C12_paint_independent_of_contents.

(** Two different buffers, a call that draws something on both *)
Example C11_C12_case :
  is_frbuf blank /\ is_frbuf new_fr_buf /\ blank <> new_fr_buf /\
  exists r, paint_str debug64 blitstr_fonts blank ex_clip ex_cursor StRegular ex_text = Ret r /\
            pixel (fst r) 12 20 <> pixel blank 12 20.
Proof.
  split; [exact blank_ok|split; [exact new_fr_buf_ok|split]].
  - intros E. apply (f_equal (fun l => hd 0 l)) in E. vm_compute in E. discriminate.
  - apply (ret_check_ex _ (fun r => pixel (fst r) 12 20)); [|vm_compute; reflexivity].
    intros r ->. rewrite pixel_blank. discriminate.
Qed.

(** C13: s is one cluster of the glyph at offset off of glyph set gs *)
Theorem C13_glyph_pixels : forall m F fb clip c st s gs off,
  cfg_ok m -> fontset_ok F -> is_frbuf fb -> paintable clip -> px (cmin clip) < 320 ->
  cursor_fits m F c s -> s <> [] -> nth_error s 0 <> Some 10 ->
  choose F st s = (gs, off, [], true) ->
  let c1 := seek F clip c (gl_w (F gs) off) in
  let x0 := cx c1 + 1 in
  let y0 := cy c1 + gl_y (F gs) off in
  y0 <= py (cmax clip) ->
  exists fb', paint_str m F fb clip c st s = Ret (fb', after F gs off c1) /\ is_frbuf fb' /\
    forall x y, x < STORED_WIDTH -> y < LINES ->
      pixel fb' x y = xorb (pixel fb x y)
        (in_rect x0 y0 (x0 + gl_w (F gs) off) (y0 + gl_h (F gs) off) x y
         && (py (cmin clip) <=? y) && (y <? py (cmax clip))
         && glyph_pixel (F gs) off (x - x0) (y - y0)).
Proof. exact paint_one_any. Qed.
Print Assumptions C13_glyph_pixels.

Example C13_case :
  match choose blitstr_fonts StBold [0x1F638] with
  | (gs, off, rest, known) => gs = Emoji /\ rest = [] /\ known = true /\
      gl_w (blitstr_fonts gs) off = 31 /\ glyph_pixel (blitstr_fonts gs) off 30 3 = true
  end.
Proof. vm_compute. repeat split; reflexivity. Qed.

(** C14 *)
Theorem C14_paint_refines_layout : forall m F fb clip c st s,
  cfg_ok m -> fontset_ok F -> is_frbuf fb -> paintable clip -> 36 <= clip_width clip ->
  cursor_fits m F c s ->
  let '(ps, c') := layout (N.to_nat (str_len s)) F clip st c s in
  exists fb', paint_str m F fb clip c st s = Ret (fb', c') /\ is_frbuf fb' /\
    forall x y, x < STORED_WIDTH -> y < LINES ->
      pixel fb' x y = xorb (pixel fb x y) (inked F clip ps x y).
Proof. exact paint_refines. Qed.
Print Assumptions C14_paint_refines_layout.

(** C15 *)
Theorem C15_glyphs_inside_columns : forall m F fb clip c st s,
  cfg_ok m -> fontset_ok F -> is_frbuf fb -> paintable clip -> 36 <= clip_width clip ->
  cursor_fits m F c s ->
  exists ps fb' c', paint_str m F fb clip c st s = Ret (fb', c') /\
    Forall (inside_columns F clip) ps /\
    (s <> [] -> px (cmin clip) <= cx c' < px (cmax clip)) /\
    forall x y, x < STORED_WIDTH -> y < LINES ->
      pixel fb' x y = xorb (pixel fb x y) (inked F clip ps x y).
Proof. exact paint_columns. Qed.
Print Assumptions C15_glyphs_inside_columns.

(** C16 *)
Theorem C16_cursor_moves_forward : forall m F fb clip c st s fb' c',
  cfg_ok m -> fontset_ok F -> is_frbuf fb -> (paintable clip -> clip_fits clip) ->
  cursor_fits m F c s -> paint_str m F fb clip c st s = Ret (fb', c') ->
  cy c < cy c' \/ (cy c = cy c' /\ cx c <= cx c' /\ line_height c <= line_height c').
Proof. exact paint_cursor_forward. Qed.
Print Assumptions C16_cursor_moves_forward.

(** C17 *)
Theorem C17_newline : forall m fb clip c st,
  cy c + N.max 24 (line_height c) + 1 < usize_limit m ->
  paint_str m blitstr_fonts fb clip c st [10]
  = Ret (fb, Cursor (Pt (px (cmin clip)) (cy c + N.max 24 (line_height c) + 1)) 0).
Proof. intros m fb clip c st H. exact (paint_newline m blitstr_fonts fb clip c st H). Qed.
Print Assumptions C17_newline.

Example C17_case : forall m, cfg_ok m -> 10 + N.max 24 30 + 1 < usize_limit m.
Proof. apply all_cfgs; reflexivity. Qed.

(** C18: [line_max F y ps start] is the largest of start and the MAX_HEIGHT of the
    glyph sets of the glyphs of ps placed on the line at y. *)
Theorem C18_line_height : forall m F fb clip c st s,
  cfg_ok m -> fontset_ok F -> is_frbuf fb -> paintable clip -> 36 <= clip_width clip ->
  cursor_fits m F c s ->
  exists ps fb' c', layout (N.to_nat (str_len s)) F clip st c s = (ps, c') /\
    paint_str m F fb clip c st s = Ret (fb', c') /\
    line_height c' = line_max F (cy c') ps (if cy c' =? cy c then line_height c else 0).
Proof. exact paint_line_height. Qed.
Print Assumptions C18_line_height.

(** C22, rows: no row above or below the clip changes *)
Theorem C22_rows_outside_clip : forall m F fb clip c st s fb' c',
  cfg_ok m -> fontset_ok F -> is_frbuf fb -> px (cmin clip) < 320 ->
  cursor_fits m F c s -> paint_str m F fb clip c st s = Ret (fb', c') ->
  forall x y, x < STORED_WIDTH -> y < LINES ->
    y < py (cmin clip) \/ py (cmax clip) <= y -> pixel fb' x y = pixel fb x y.
Proof. exact paint_rows. Qed.
Print Assumptions C22_rows_outside_clip.

(** C22, stop: if the next cluster is known and would start below the clip, the call
    draws nothing and leaves the cursor where that glyph would have gone, whatever
    follows in the string. *)
Theorem C22_stops_below_clip : forall m F fb clip c st s gs off rest,
  cfg_ok m -> fontset_ok F -> is_frbuf fb -> paintable clip -> 36 <= clip_width clip ->
  cursor_fits m F c s -> s <> [] -> nth_error s 0 <> Some 10 ->
  choose F st s = (gs, off, rest, true) ->
  py (cmax clip) < p_y (placed_at F gs off (seek F clip c (gl_w (F gs) off))) ->
  paint_str m F fb clip c st s = Ret (fb, seek F clip c (gl_w (F gs) off)).
Proof. exact paint_stops. Qed.
Print Assumptions C22_stops_below_clip.

Example C22_case :
  let c := Cursor (Pt 10 98) 0 in let s := [97; 0x1F638] in
  cursor_fits debug64 blitstr_fonts c s /\
  match choose blitstr_fonts StRegular s with
  | (gs, off, rest, known) => known = true /\ rest = [0x1F638] /\
      100 < p_y (placed_at blitstr_fonts gs off (seek blitstr_fonts ex_clip c (gl_w (blitstr_fonts gs) off)))
  end.
Proof. vm_compute. repeat split; congruence. Qed.

(** For an unknown character it is false: the replacement glyph is below the clip and
    is skipped, but the cat after it is drawn. *)
Theorem C22_unknown_below_clip_refuted : forall m, cfg_ok m ->
  let c := Cursor (Pt 10 98) 0 in let s := [0x378; 0x1F638] in
  match choose blitstr_fonts StRegular s with
  | (gs, off, _, known) => known = false /\
      100 < p_y (placed_at blitstr_fonts gs off (seek blitstr_fonts ex_clip c (gl_w (blitstr_fonts gs) off)))
  end /\
  exists r, paint_str m blitstr_fonts blank ex_clip c StRegular s = Ret r /\
    (fst r <> blank /\ cx (snd r) = 44).
Proof.
  intros m Hm c s. split; [vm_compute; split; reflexivity|]. revert m Hm.
  assert (A : forall r : frbuf * cursor,
     existsb (fun x => pixel (fst r) x 98) (map N.of_nat (seq 0 60)) && (cx (snd r) =? 44) = true ->
     fst r <> blank /\ cx (snd r) = 44).
  { intros r H. apply andb_prop in H as [H1 H2]. apply N.eqb_eq in H2. split; [|assumption].
    intros E. rewrite E in H1. apply existsb_exists in H1 as (x & _ & H).
    rewrite pixel_blank in H. discriminate. }
  apply all_cfgs; apply (ret_check_ex _ _ _ A); vm_compute; reflexivity.
Qed.
Print Assumptions C22_unknown_below_clip_refuted.

(** C23 *)
Theorem C23_empty_string : forall m F fb clip c st, paint_str m F fb clip c st [] = Ret (fb, c).
Proof. reflexivity. Qed.
Print Assumptions C23_empty_string.

(** C24: [box_after F p q]: the bitmap rectangle of q is right of or below that of p *)
Theorem C24_glyphs_disjoint : forall m F fb clip c st s,
  cfg_ok m -> fontset_ok F -> is_frbuf fb -> paintable clip -> 36 <= clip_width clip ->
  cursor_fits m F c s ->
  let '(ps, c') := layout (N.to_nat (str_len s)) F clip st c s in
  ForallOrdPairs (box_after F) ps /\
  exists fb', paint_str m F fb clip c st s = Ret (fb', c') /\
    forall x y, x < STORED_WIDTH -> y < LINES ->
      pixel fb' x y = xorb (pixel fb x y) (existsb (fun p => ink F clip p x y) ps).
Proof. exact paint_disjoint. Qed.
Print Assumptions C24_glyphs_disjoint.

(** C25: the frame buffer is unchanged; only leading newlines move the cursor *)
Theorem C25_rejected_clip : forall m F fb clip c st s,
  py (cmax clip) > LINES \/ px (cmax clip) > WIDTH \/ px (cmin clip) >= px (cmax clip) ->
  cy c + N.max (line_height c) (tallest F) + (tallest F + 1) * N.of_nat (leading_newlines s) < usize_limit m ->
  paint_str m F fb clip c st s
  = Ret (fb, Nat.iter (leading_newlines s) (break_line F clip) c).
Proof.
  intros m F fb clip c st s H Hn. rewrite paint_invalid.
  - rewrite newlines_ok by assumption. reflexivity.
  - unfold paintable. intros [[A B] C]. destruct H as [H|[H|H]].
    + apply N.gt_lt in H. exact (N.lt_irrefl _ (N.lt_le_trans _ _ _ H C)).
    + apply N.gt_lt in H. exact (N.lt_irrefl _ (N.lt_le_trans _ _ _ H B)).
    + apply N.ge_le in H. exact (N.lt_irrefl _ (N.lt_le_trans _ _ _ A H)).
Qed.
Print Assumptions C25_rejected_clip.

Example C25_case : let clip := cliprect_new 0 0 337 100 in
  px (cmax clip) > WIDTH /\
  paint_str debug64 blitstr_fonts blank clip ex_cursor StSmall [10; 10; 97; 10]
  = Ret (blank, Cursor (Pt 0 60) 0).
Proof. split; [reflexivity|]. rewrite C25_rejected_clip; [reflexivity|right; left; reflexivity|reflexivity]. Qed.

(** C27: for all fonts, clips, cursors and build modes *)
Theorem C27_paints_commute : forall m F fb clipA cA stA sA clipB cB stB sB,
  is_frbuf fb ->
  forall fbA cA' fbAB cB',
    paint_str m F fb clipA cA stA sA = Ret (fbA, cA') ->
    paint_str m F fbA clipB cB stB sB = Ret (fbAB, cB') ->
    exists fbB, paint_str m F fb clipB cB stB sB = Ret (fbB, cB') /\
                paint_str m F fbB clipA cA stA sA = Ret (fbAB, cA').
Proof. exact paint_commute. Qed.
Print Assumptions C27_paints_commute.

(** Two overlapping calls that both return (by C09) *)
Example C27_case : forall m, cfg_ok m -> exists fbA cA' fbAB cB',
  paint_str m blitstr_fonts new_fr_buf ex_clip ex_cursor StBold ex_text = Ret (fbA, cA') /\
  paint_str m blitstr_fonts fbA ex_clip ex_cursor StSmall ex_text = Ret (fbAB, cB').
Proof.
  intros m Hm. destruct (call_ok m Hm) as (H1 & H2 & H3 & H4 & _ & H5).
  destruct (C09_paint_returns m blitstr_fonts new_fr_buf ex_clip ex_cursor StBold ex_text)
    as (fbA & cA & EA & HA); auto.
  destruct (C09_paint_returns m blitstr_fonts fbA ex_clip ex_cursor StSmall ex_text)
    as (fbAB & cB & EB & _); auto.
  exists fbA, cA, fbAB, cB. split; assumption.
Qed.
