(** * C80: a clip that ends higher up shows the beginning of the same text *)
From Verif Require Import PrimFacts Geom Str FontDefs Blit Spec SpecPaint SpecCrop Fonts FontsOk ClearProofs CropProofs.

(** C80: of the glyphs that a clip shows, one that ends higher up shows those before the first whose top is below its
    bottom, cut at the bottom.  If there is no such glyph, it shows all that the other shows of its rows; in any case
    the rows above the cursor that it leaves are the same *)
Theorem C80_crop : forall m F fb clip c st s b,
  cfg_ok m -> fontset_ok F -> is_frbuf fb -> paintable clip -> 36 <= clip_width clip -> cursor_fits m F c s ->
  b <= py (cmax clip) -> known_text F st s ->
  exists ps fb1 c1 fb2 c2,
    paint_str m F fb clip c st s = Ret (fb1, c1) /\
    (forall x y, x < STORED_WIDTH -> y < LINES -> pixel fb1 x y = xorb (pixel fb x y) (inked F clip ps x y)) /\
    paint_str m F fb (ending_at b clip) c st s = Ret (fb2, c2) /\
    (forall x y, x < STORED_WIDTH -> y < LINES ->
      pixel fb2 x y = xorb (pixel fb x y) (inked F (ending_at b clip) (before_row b ps) x y)) /\
    (Forall (fun p => p_y p <= b) ps ->
      forall x y, x < STORED_WIDTH -> y < LINES -> pixel fb2 x y = if y <? b then pixel fb1 x y else pixel fb x y) /\
    (forall x y, x < STORED_WIDTH -> y < b -> y < cy c2 -> pixel fb2 x y = pixel fb1 x y).
Proof. exact paint_crop. Qed.
Print Assumptions C80_crop.

(** C80: it does not show all that the other shows of its rows: in a clip that ends between the tops of A and of the
    low line, "_A" shows nothing, though the rows of the A above the bottom would be seen *)
Definition low_line_a : str := [95; 65].
Theorem C80_crop_refuted :
  let clip := cliprect_new 0 0 60 50 in let c := Cursor (Pt 0 0) 0 in
  known_text blitstr_fonts StRegular low_line_a /\
  forall m, cfg_ok m -> exists fb1 c1 c2,
    paint_str m blitstr_fonts blank clip c StRegular low_line_a = Ret (fb1, c1) /\
    paint_str m blitstr_fonts blank (ending_at 20 clip) c StRegular low_line_a = Ret (blank, c2) /\
    exists x y, y < 20 /\ pixel fb1 x y <> pixel blank x y.
Proof.
  intros clip c. split.
  { eapply kn_cluster; [discriminate|vm_compute; reflexivity|].
    eapply kn_cluster; [discriminate|vm_compute; reflexivity|]. apply kn_nothing. }
  intros m Hm.
  assert (K : forall m, cfg_ok m -> match paint_str m blitstr_fonts blank clip c StRegular low_line_a,
      paint_str m blitstr_fonts blank (ending_at 20 clip) c StRegular low_line_a with
    | Ret (fb1, _), Ret (fb2, _) => existsb (fun x => pixel fb1 x 15) (map N.of_nat (seq 0 60)) = true /\ fb2 = blank
    | _, _ => False end).
  { apply all_cfgs; vm_compute; split; reflexivity. }
  specialize (K m Hm). destruct (paint_str m _ _ clip c _ _) as [[fb1 c1]|]; [|contradiction].
  destruct (paint_str m _ _ (ending_at 20 clip) c _ _) as [[fb2 c2]|]; [|contradiction]. destruct K as [K ->].
  exists fb1, c1, c2. split; [reflexivity|]. split; [reflexivity|]. apply existsb_exists in K as (x & Hi & K).
  exists x, 15. split; [lia|]. rewrite K. replace (pixel blank x 15) with false; [discriminate|].
  symmetry. apply in_map_iff in Hi as (k & <- & Hk). apply in_seq in Hk.
  assert (Z : forallb (fun k => negb (pixel blank (N.of_nat k) 15)) (seq 0 60) = true) by (vm_compute; reflexivity).
  rewrite forallb_forall in Z. specialize (Z k ltac:(apply in_seq; lia)). destruct (pixel blank _ _); [discriminate|reflexivity].
Qed.
Print Assumptions C80_crop_refuted.

(** Two lines in a clip that ends in the second *)
Example C80_case :
  let clip := cliprect_new 0 0 60 80 in let c := Cursor (Pt 0 0) 0 in let s := [65; 10; 66] in
  known_text blitstr_fonts StRegular s /\
  match layout 9 blitstr_fonts clip StRegular c s with
  | (ps, _) => length ps = 2%nat /\ before_row 42 ps = ps /\ length (before_row 30 ps) = 1%nat
  end.
Proof.
  intros clip c s. split.
  { eapply kn_cluster; [discriminate|vm_compute; reflexivity|]. apply kn_newline.
    eapply kn_cluster; [discriminate|vm_compute; reflexivity|]. apply kn_nothing. }
  vm_compute. repeat split.
Qed.
