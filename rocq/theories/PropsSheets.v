(** * Properties C55 and C56: the fonts and the sprite sheets *)
From Coq Require Import ZArith.
From Verif Require Import Prim PrimFacts Geom Str M3Hash FontDefs Blit Spec SpecPaint SpecText SpecCodegen SpecIndex SpecSheet SpecPictures.
From Verif Require Import Codegen CodegenText Fonts FontsOk IndexProofs SheetCells Sheets SheetFonts PictureProofs.
From Verif Require Import ClearProofs TextProofs PropsClear PropsPaint PropsText.

(** C55: running the generator on the committed sheets, indexes and aliases gives the
    committed fonts, whatever an image says about pixels outside of it *)
Theorem C55_fonts_are_generated : forall gs outside,
  generate (font_spec gs) (sheet_image (sheet_width gs) (sheet_rows gs) outside)
           (font_charspecs gs) (font_gcaliases gs) = Ret (blitstr_fonts gs).
Proof. exact sheet_generates. Qed.
Print Assumptions C55_fonts_are_generated.

(** C55: every cluster of an index, and every alias, is found, and its glyph is its
    picture on the sheet *)
Theorem C55_glyph_is_picture : forall gs i cl,
  pictured gs i cl ->
  exists off x, get_blit_pattern_offset (blitstr_fonts gs) cl = Ret (Some (off, str_len cl)) /\
    draws (blitstr_fonts gs) off (picture gs i) x.
Proof. exact cluster_drawn_lookup. Qed.
Print Assumptions C55_glyph_is_picture.

(** The bold A: entry 33, its second glyph row *)
Example C55_case : pictured Bold 33 [65] /\ picture_place Bold 33 = (1, 4)%nat /\
  map (fun row => firstn 14 (skipn 8 row)) (firstn 4 (skipn 6 (picture Bold 33))) =
    [[0; 0; 1; 1; 1; 1; 1; 1; 1; 1; 0; 0; 0; 0];
     [0; 0; 1; 1; 1; 1; 1; 1; 1; 1; 0; 0; 0; 0];
     [1; 1; 1; 1; 0; 0; 0; 0; 1; 1; 1; 1; 0; 0];
     [1; 1; 1; 1; 0; 0; 0; 0; 1; 1; 1; 1; 0; 0]]%Z.
Proof.
  split; [|vm_compute; split; reflexivity].
  exists [65]. split; [vm_compute; reflexivity|left; reflexivity].
Qed.

(** C56: painting a cluster inverts the black pixels of its picture, from column x of
    the picture on, the top of the picture at the cursor, and no others *)
Theorem C56_paint_shows_picture : forall m fb clip c st gs i cl,
  cfg_ok m -> is_frbuf fb -> paintable clip -> px (cmin clip) < 320 -> cursor_fits m blitstr_fonts c cl ->
  pictured gs i cl -> painted_with st gs cl ->
  exists off x, get_blit_pattern_offset (blitstr_fonts gs) cl = Ret (Some (off, str_len cl)) /\
  let c1 := seek blitstr_fonts clip c (gl_w (blitstr_fonts gs) off) in
  (cy c1 + gl_y (blitstr_fonts gs) off <= py (cmax clip) ->
   exists fb', paint_str m blitstr_fonts fb clip c st cl = Ret (fb', after blitstr_fonts gs off c1) /\ is_frbuf fb' /\
    forall X Y, X < STORED_WIDTH -> Y < LINES ->
      pixel fb' X Y = xorb (pixel fb X Y)
        ((cx c1 + 1 <=? X) && (cy c1 <=? Y) && (py (cmin clip) <=? Y) && (Y <? py (cmax clip))
         && is_set (picture gs i) (N.to_nat (Y - cy c1)) (x + N.to_nat (X - (cx c1 + 1))))).
Proof. exact paint_picture. Qed.
Print Assumptions C56_paint_shows_picture.

(** C56: not every Latin cluster is painted with the Latin font of the style: U+A9 and
    U+AE are in the Latin index, and are painted as emoji, the same in every style *)
Theorem C56_latin_style_refuted : forall s, In s [[0xA9]; [0xAE]] ->
  In s (font_index Small) /\ In s (font_index Regular) /\ In s (font_index Bold) /\
  forall st, exists off, choose blitstr_fonts st s = (Emoji, off, [], true) /\
    forall st' m fb clip c,
      paint_str m blitstr_fonts fb clip c st s = paint_str m blitstr_fonts fb clip c st' s.
Proof.
  intros s I.
  assert (L : In s IndexLatin.latin_index) by (apply inb_in; destruct I as [<-|[<-|[]]]; vm_compute; reflexivity).
  split; [exact L|]. split; [exact L|]. split; [exact L|].
  intros st. destruct (copyright_emoji st s I) as (off & E). exists off. split; [exact E|].
  intros st' m fb clip c. apply C20_style_independent; [exact all_fonts_ok|].
  destruct I as [<-|[<-|[]]].
  - eapply nl_emoji; [discriminate|lookup_one|constructor].
  - eapply nl_emoji; [discriminate|lookup_one|constructor].
Qed.
Print Assumptions C56_latin_style_refuted.

(** A decomposed accented letter, an emoji and a hanzi with their places on the sheets *)
Example C56_case :
  (exists i, pictured Small i [0x65; 0x301] /\ painted_with StSmall Small [0x65; 0x301]) /\
  (pictured Emoji 1000 [0x1F468; 0x1F3FF] /\ picture_place Emoji 1000 = (62, 8)%nat) /\
  (exists i, pictured Hanzi i [0x4E01] /\ painted_with StBold Hanzi [0x4E01]).
Proof.
  split; [|split; [split; [|vm_compute; reflexivity]|]].
  - assert (J : In [0xE9] (font_index Small)) by (apply inb_in; vm_compute; reflexivity).
    apply In_nth_error in J. destruct J as (i & J). exists i. split; [|repeat split; discriminate].
    exists [0xE9]. split; [exact J|]. right. vm_compute. tauto.
  - exists [0x1F468; 0x1F3FF]. split; [vm_compute; reflexivity|left; reflexivity].
  - assert (J : In [0x4E01] (font_index Hanzi)) by (apply inb_in; vm_cast_no_check (eq_refl true)).
    apply In_nth_error in J. destruct J as (i & J). exists i. split; [|exact I].
    exists [0x4E01]. split; [exact J|left; reflexivity].
Qed.

(** The theorem at work: the bold A on a blank screen *)
Example C56_case_paint : exists off fb' c',
  get_blit_pattern_offset (blitstr_fonts Bold) [65] = Ret (Some (off, 1)) /\
  paint_str debug64 blitstr_fonts blank ex_clip ex_cursor StBold [65] = Ret (fb', c') /\
  pixel blank 13 16 = false /\ pixel fb' 13 16 = is_set (picture Bold 33) 6 10 /\
  is_set (picture Bold 33) 6 10 = true.
Proof.
  eexists _, _, _. split; [vm_compute; reflexivity|]. split; [vm_compute; reflexivity|].
  split; [vm_compute; reflexivity|]. split; vm_compute; reflexivity.
Qed.
