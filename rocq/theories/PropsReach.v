(** * C82: a clip that ends further left shows the same, as far as no line breaks earlier *)
From Verif Require Import PrimFacts Geom Str FontDefs Blit Spec SpecPaint SpecCrop SpecReach Fonts FontsOk ClearProofs LayoutProofs ReachProofs.

(** C82: of the glyphs that a clip shows, one that ends further left shows those before the first whose cell does not
    end left of its right edge, at the same places, and more only if there is one.  If there is none, the frame buffers
    are the same, and the cursors too, unless a glyph below the clip, which neither shows, breaks the line in only one *)
Theorem C82_narrow : forall m F fb clip c st s r,
  cfg_ok m -> fontset_ok F -> is_frbuf fb -> paintable clip -> cursor_fits m F c s ->
  px (cmin clip) + 36 <= r -> r <= px (cmax clip) -> known_text F st s ->
  exists ps more fb1 c1 fb2 c2,
    paint_str m F fb clip c st s = Ret (fb1, c1) /\
    (forall x y, x < STORED_WIDTH -> y < LINES -> pixel fb1 x y = xorb (pixel fb x y) (inked F clip ps x y)) /\
    paint_str m F fb (reaching r clip) c st s = Ret (fb2, c2) /\
    (forall x y, x < STORED_WIDTH -> y < LINES ->
      pixel fb2 x y = xorb (pixel fb x y) (inked F clip (before_column F r ps ++ more) x y)) /\
    (Forall (cell_left_of F r) ps -> fb2 = fb1 /\ (c2 = c1 \/ cy c1 < cy c2)).
Proof. exact paint_narrow. Qed.
Print Assumptions C82_narrow.

(** C82: that the ink is left of the edge is not enough: the padding counts, and one column more *)
Definition three_a : str := [65; 65; 65].
Theorem C82_narrow_refuted :
  let clip := cliprect_new 0 0 100 80 in let c := Cursor (Pt 0 0) 0 in
  known_text blitstr_fonts StRegular three_a /\
  forall m, cfg_ok m -> exists fb1 c1 fb2 c2,
    paint_str m blitstr_fonts blank clip c StRegular three_a = Ret (fb1, c1) /\
    (forall x y, 49 <= x -> x < STORED_WIDTH -> y < LINES -> pixel fb1 x y = pixel blank x y) /\
    paint_str m blitstr_fonts blank (reaching 51 clip) c StRegular three_a = Ret (fb2, c2) /\
    fb2 <> fb1.
Proof.
  intros clip c. split.
  { do 3 (eapply kn_cluster; [discriminate|vm_compute; reflexivity|]). apply kn_nothing. }
  intros m Hm.
  assert (Fit : cursor_fits m blitstr_fonts c three_a) by (revert m Hm; apply all_cfgs; vm_compute; repeat split; try reflexivity; discriminate).
  assert (Hc : paintable clip) by (vm_compute; repeat split; discriminate).
  pose proof (paint_refines m blitstr_fonts blank clip c StRegular three_a Hm fonts_ok blank_ok Hc ltac:(vm_compute; discriminate) Fit) as R.
  assert (L : forallb (fun p => p_x p + gl_w (blitstr_fonts (p_set p)) (p_off p) <=? 49)
    (fst (layout (N.to_nat (str_len three_a)) blitstr_fonts clip StRegular c three_a)) = true) by (vm_compute; reflexivity).
  destruct (layout _ blitstr_fonts clip StRegular c three_a) as [ps c1]. cbn [fst] in L.
  destruct R as (fb1 & E1 & _ & D1).
  assert (K : forall m, cfg_ok m -> match paint_str m blitstr_fonts blank clip c StRegular three_a,
      paint_str m blitstr_fonts blank (reaching 51 clip) c StRegular three_a with
    | Ret (a, _), Ret (b, _) => existsb (fun x => negb (Bool.eqb (pixel a x 45) (pixel b x 45))) (map N.of_nat (seq 0 60)) = true
    | _, _ => False end).
  { apply all_cfgs; vm_compute; reflexivity. }
  specialize (K m Hm). rewrite E1 in K. destruct (paint_str m _ _ (reaching 51 clip) c _ _) as [[fb2 c2]|]; [|contradiction].
  exists fb1, c1, fb2, c2. split; [exact E1|]. split; [|split; [reflexivity|]].
  - intros x y H1 H2 H3. rewrite (D1 x y H2 H3). rewrite (inked_left blitstr_fonts clip ps 49 x y); [apply xorb_false_r| |exact H1].
    rewrite forallb_forall in L. apply Forall_forall. intros p Hp. apply N.leb_le, L, Hp.
  - intros ->. apply existsb_exists in K as (x & _ & K). rewrite Bool.eqb_reflx in K. discriminate.
Qed.
Print Assumptions C82_narrow_refuted.

(** Three letters, of which all are left of column 52, and one breaks the line at 51 *)
Example C82_case :
  let clip := cliprect_new 0 0 100 80 in let c := Cursor (Pt 0 0) 0 in
  let ps := fst (layout 9 blitstr_fonts clip StRegular c three_a) in
  before_column blitstr_fonts 52 ps = ps /\ length ps = 3%nat /\ length (before_column blitstr_fonts 51 ps) = 2%nat /\
  map p_x (fst (layout 9 blitstr_fonts (reaching 51 clip) StRegular c three_a)) = [1; 18; 1].
Proof. vm_compute. repeat split. Qed.
