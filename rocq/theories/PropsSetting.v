(** * C62: painting a text shows the pictures of its clusters *)
From Coq Require Import ZArith.
From Verif Require Import PrimFacts Str Geom FontDefs Blit Spec SpecCodegen SpecIndex SpecPictures Fonts IndexCheck IndexProofs FontsOk.
From Verif Require Import PaintProofs SpecPaint SpecSetting SettingProofs.

(** C55: the glyph of a cluster is as wide as the inked part of its picture, and starts in
    the first row with ink *)
Theorem C55_glyph_is_trimmed : forall gs i cl, pictured gs i cl ->
  exists off, glyph_for (blitstr_fonts gs) cl = Some (off, length cl) /\
    draws (blitstr_fonts gs) off (picture gs i) (first_column (part_used gs i)) /\
    gl_w (blitstr_fonts gs) off = width (part_used gs i) /\
    gl_y (blitstr_fonts gs) off = first_row (part_used gs i).
Proof. exact part_drawn. Qed.
Print Assumptions C55_glyph_is_trimmed.

(** C62: whatever is in the buffer, painting a text inverts the pixels where an odd
    number of the pictures of its clusters, set side by side in lines, have ink, and no
    others *)
Theorem C62_text_shows_pictures : forall m fb clip c st items,
  cfg_ok m -> is_frbuf fb -> paintable clip -> 36 <= clip_width clip ->
  cursor_fits m blitstr_fonts c (spelled items) -> reads st items ->
  let '(spots, c') := typeset clip c items in
  exists fb', paint_str m blitstr_fonts fb clip c st (spelled items) = Ret (fb', c') /\ is_frbuf fb' /\
    forall x y, x < STORED_WIDTH -> y < LINES ->
      pixel fb' x y = xorb (pixel fb x y) (spots_ink clip spots x y).
Proof. exact text_shows. Qed.
Print Assumptions C62_text_shows_pictures.

(** C62: letters, with or without accents, hanzi and newlines are read as what they are
    exactly when no three characters are a lookalike of a keycap emoji *)
Theorem C62_plain_texts : forall st items, Forall (plain_item st) items ->
  (reads st items <-> no_lookalike (spelled items)).
Proof.
  intros st items H. split; [exact (reads_no_lookalike st items H)|exact (plain_reads st items H)].
Qed.
Print Assumptions C62_plain_texts.

(** C62: so are all texts without hanzi, and all without letters *)
Theorem C62_one_script : forall st items, Forall (plain_item st) items ->
  Forall (fun it => match it with Cluster Hanzi _ _ => False | _ => True end) items \/
  Forall (fun it => match it with Newline | Cluster Hanzi _ _ => True | _ => False end) items ->
  reads st items.
Proof.
  intros st items H [A|A]; apply (plain_reads st items H);
    [exact (letters_no_lookalike st items H A)|exact (hanzi_no_lookalike st items H A)].
Qed.
Print Assumptions C62_one_script.

(** C62: every string of newlines and characters of the Latin and hanzi indexes is such
    a text *)
Theorem C62_every_string : forall st s,
  Forall (fun c => c = 10 \/ In [c] (font_index (latin_set st)) \/ In [c] (font_index Hanzi)) s ->
  exists items, Forall (plain_item st) items /\ spelled items = s.
Proof. exact char_items. Qed.
Print Assumptions C62_every_string.

(** C62, what is wrong: not every such text shows its pictures.  Every lookalike is a text
    of three characters that have glyphs, and is painted as one emoji. *)
Theorem C62_lookalikes_refuted : forall three k, In (three, k) lookalikes ->
  (forall st, Forall (fun c => In [c] (font_index (latin_set st)) \/ In [c] (font_index Hanzi)) three) /\
  In (keycap k) (map snd (font_aliases Emoji)) /\
  forall m fb clip c st, cfg_ok m -> is_frbuf fb -> paintable clip -> 36 <= clip_width clip ->
    cursor_fits m blitstr_fonts c three -> cursor_fits m blitstr_fonts c (keycap k) ->
    paint_str m blitstr_fonts fb clip c st three = paint_str m blitstr_fonts fb clip c st (keycap k).
Proof.
  intros three k I. split; [exact (lookalike_has_glyphs three k I)|]. split.
  - destruct (lookalike_shape three k I) as (a & d & e & off & _ & _ & _ & _ & _ & _ & _ & J). exact J.
  - intros m fb clip c st. exact (lookalike_paint m fb clip c st three k I).
Qed.
Print Assumptions C62_lookalikes_refuted.

(** "a 瞍" is painted as the keycap of the number sign *)
Example C62_case_lookalike : In ([0x61; 0x20; 0x778D], 0x23) lookalikes /\ length lookalikes = 43%nat.
Proof. split; [apply (nth_error_In _ 2); reflexivity|reflexivity]. Qed.

(** "Hé", the accent a character of its own, a newline and 好: where the pictures are *)
Definition hello : list item :=
  [Cluster Regular 40 [0x48]; Cluster Regular 168 [0x65; 0x301]; Newline; Cluster Hanzi (N.to_nat 1443) [0x597D]].
Example C62_case : Forall (plain_item StRegular) hello /\ reads StRegular hello /\
  typeset (ClipRect (Pt 0 0) (Pt 336 536)) (Cursor (Pt 0 0) 0) hello =
    ([Spot Regular 40 1 0; Spot Regular 168 16 0; Spot Hanzi (N.to_nat 1443) 1 31], Cursor (Pt 35 31) 32) /\
  part_used Regular 40 = Part 8 12 6.
Proof.
  assert (P : Forall (plain_item StRegular) hello).
  { repeat apply Forall_cons; [| | | |apply Forall_nil].
    - apply (pl_latin StRegular); [|discriminate|discriminate].
      exists [0x48]. split; [vm_compute; reflexivity|left; reflexivity].
    - apply (pl_latin StRegular); [|discriminate|discriminate].
      exists [0xE9]. split; [vm_compute; reflexivity|right].
      assert (E : existsb (fun p => str_eqb (fst p) [0xE9] && str_eqb (snd p) [0x65; 0x301]) (font_aliases Regular) = true)
        by (vm_compute; reflexivity).
      apply existsb_exists in E. destruct E as ([a b] & I & E). apply andb_prop in E. cbn [fst snd] in E.
      destruct E as [E1 E2]. apply str_eqb_eq in E1, E2. subst a b. exact I.
    - apply pl_newline.
    - apply pl_hanzi. exists [0x597D]. split; [vm_compute; reflexivity|left; reflexivity]. }
  split; [exact P|]. split.
  - apply C62_plain_texts; [exact P|]. intros b three r k E I.
    assert (A : forallb (fun p => match fst p with [_; d; e] => negb ((d =? 0x301) && (e =? 10)) && (0x20 <=? e) | _ => false end) lookalikes = true)
      by (vm_compute; reflexivity).
    rewrite forallb_forall in A. specialize (A _ I). cbn [fst] in A.
    destruct three as [|x [|d [|e [|]]]]; try discriminate.
    change (spelled hello) with [0x48; 0x65; 0x301; 10; 0x597D] in E.
    assert (B : forallb (fun p => negb (str_eqb (fst p) [0x48; 0x65; 0x301])) lookalikes = true) by (vm_compute; reflexivity).
    assert (B' : forallb (fun p => negb (str_eqb (fst p) [0x301; 10; 0x597D])) lookalikes = true) by (vm_compute; reflexivity).
    rewrite forallb_forall in B, B'. specialize (B _ I). specialize (B' _ I). cbn [fst] in B, B'.
    destruct b as [|b0 [|b1 [|b2 b]]]; cbn [app] in E.
    + injection E as <- <- <- _. discriminate.
    + injection E as _ <- <- <- _. discriminate.
    + injection E as _ _ <- <- <- _. discriminate.
    + injection E as _ _ _ E. apply (f_equal (@List.length N)) in E. rewrite !app_length in E. simpl in E. lia.
  - split; vm_compute; reflexivity.
Qed.

(** In a clip 60 pixels wide the second of two hanzi goes to the next line, one pixel
    below the first *)
Example C62_case_wrap :
  typeset (ClipRect (Pt 8 8) (Pt 68 200)) (Cursor (Pt 0 8) 0) [Cluster Hanzi 0 []; Cluster Hanzi 1 []] =
    ([Spot Hanzi 0 9 8; Spot Hanzi 1 9 41], Cursor (Pt 43 41) 32) /\
  spots_ink (ClipRect (Pt 8 8) (Pt 68 200)) [Spot Hanzi 0 9 8] 17 26 = is_set (picture Hanzi 0) 18 8.
Proof. split; vm_compute; reflexivity. Qed.
