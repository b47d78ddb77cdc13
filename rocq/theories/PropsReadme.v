(** * C63: lines of text, as the README describes them *)
From Coq Require Import ZArith.
From Verif Require Import PrimFacts Str Geom FontDefs Fonts Blit Spec SpecIndex SpecPictures IndexCheck IndexProofs FontsOk FbFacts.
From Verif Require Import SpecPaint SpecSetting SettingProofs SpecReadme ReadmeProofs.

(** C63: the pictures of a text are in lines.  Each is inside the clip, right of those
    before it on its line; its ink is within its height; between two lines is at least
    one blank row. *)
Theorem C63_text_in_lines : forall m fb clip c st items,
  cfg_ok m -> is_frbuf fb -> paintable clip -> 36 <= clip_width clip ->
  cursor_fits m blitstr_fonts c (spelled items) -> reads st items ->
  exists spots fb' c', paint_str m blitstr_fonts fb clip c st (spelled items) = Ret (fb', c') /\
    (forall x y, x < STORED_WIDTH -> y < LINES ->
       pixel fb' x y = xorb (pixel fb x y) (spots_ink clip spots x y)) /\
    ForallOrdPairs (fun p q => in_lines p q /\ side_by_side p q) spots /\
    Forall (fun s => cy c <= s_top s /\ px (cmin clip) + 1 <= s_left s /\
              s_left s + width (part_used (s_set s) (s_picture s)) + 2 < px (cmax clip)) spots /\
    (forall s x y, spot_ink clip s x y = true -> s_top s <= y < s_top s + glyph_height (s_set s)).
Proof.
  intros m fb clip c st items Hm Hfb Hp Hw Hc R.
  pose proof (text_shows m fb clip c st items Hm Hfb Hp Hw Hc R) as T.
  pose proof (typeset_lines clip Hp Hw items c) as L. pose proof (typeset_from clip Hp Hw items c) as F.
  destruct (typeset clip c items) as [spots c']. destruct T as (fb' & E & _ & P). cbn [fst] in *.
  exists spots, fb', c'. split; [exact E|]. split; [exact P|]. split; [exact L|]. split.
  - eapply Forall_impl; [|exact F]. intros s (A & _ & _ & B). split; [exact A|exact B].
  - intros s x y. exact (spot_rows clip s x y).
Qed.
Print Assumptions C63_text_in_lines.

(** C63: a line that fits, and a newline.  The line is as high as its tallest glyph; the
    next starts at the left edge of the clip, one row below it (below 24 rows, if there
    are no glyphs). *)
Theorem C63_line_height : forall m fb clip c st items,
  cfg_ok m -> is_frbuf fb -> paintable clip -> 36 <= clip_width clip ->
  cursor_fits m blitstr_fonts c (spelled items ++ [10]) -> reads st (items ++ [Newline]) ->
  one_line items -> px (cmin clip) <= cx c ->
  cx c + line_width items < px (cmax clip) -> cy c + 31 <= py (cmax clip) ->
  exists fb',
    paint_str m blitstr_fonts fb clip c st (spelled items ++ [10])
    = Ret (fb', Cursor (Pt (px (cmin clip)) (cy c + N.max 24 (N.max (line_height c) (line_height_of items)) + 1)) 0) /\
    forall x y, x < STORED_WIDTH -> y < LINES -> pixel fb' x y <> pixel fb x y ->
      cy c <= y < cy c + line_height_of items.
Proof. exact paint_line. Qed.
Print Assumptions C63_line_height.

(** README: "hello\n" would be 24px high in Small or 30px high in Regular; "hello", a cat
    and a newline 32px in any style *)
Definition letter (st : glyphstyle) (i : nat) : item := Cluster (latin_set st) i [N.of_nat i + 32].
Definition hello (st : glyphstyle) : list item := map (letter st) [72; 69; 76; 76; 79]%nat.
Definition hello_cat (st : glyphstyle) : list item :=
  hello st ++ [letter st 0; Cluster Emoji (N.to_nat 1864) [0x1F638]].

Lemma letter_pictured st i : (i <= 79)%nat -> pictured (latin_set st) i [N.of_nat i + 32].
Proof.
  intros H. exists [N.of_nat i + 32]. split; [|left; reflexivity].
  assert (A : forallb (fun i => match nth_error (font_index Small) i with Some [c] => c =? N.of_nat i + 32 | _ => false end)
            (seq 0 80) = true) by (vm_compute; reflexivity).
  rewrite forallb_forall in A. specialize (A i ltac:(apply in_seq; lia)).
  replace (font_index (latin_set st)) with (font_index Small) by (destruct st; reflexivity).
  destruct (nth_error (font_index Small) i) as [[|c [|]]|]; try discriminate. apply N.eqb_eq in A. subst c. reflexivity.
Qed.

Lemma reads_cluster st gs i cl rest : pictured gs i cl ->
  get_blit_pattern_offset (blitstr_fonts gs) (cl ++ spelled rest) <> Panic ->
  found_first st gs cl (cl ++ spelled rest) -> reads st rest -> reads st (Cluster gs i cl :: rest).
Proof. intros P _ F R. exact (rd_cluster st gs i cl rest P F R). Qed.

Definition finds (st : glyphstyle) (gs : glyphset) (cl s : str) : bool :=
  match get_blit_pattern_offset (blitstr_fonts gs) s with Ret (Some (_, n)) => n =? str_len cl | _ => false end
  && match gs with
     | Emoji => true
     | Hanzi => false
     | _ => match get_blit_pattern_offset (blitstr_fonts Emoji) s with Ret None => true | _ => false end
     end.
Lemma finds_first st cl s : finds st (latin_set st) cl s = true -> found_first st (latin_set st) cl s.
Proof.
  unfold finds, found_first, known, unknown_to. intros H. apply andb_prop in H as [H1 H2].
  destruct (get_blit_pattern_offset (blitstr_fonts (latin_set st)) s) as [[[o n]|]|]; try discriminate.
  apply N.eqb_eq in H1. subst n. split; [exists o; reflexivity|].
  destruct st; cbn [latin_set] in *; (split; [reflexivity|]);
    destruct (get_blit_pattern_offset (blitstr_fonts Emoji) s) as [[|]|]; (discriminate || reflexivity).
Qed.
Lemma finds_emoji st cl s : finds st Emoji cl s = true -> found_first st Emoji cl s.
Proof.
  unfold finds, found_first, known. intros H. apply andb_prop in H as [H1 _].
  destruct (get_blit_pattern_offset (blitstr_fonts Emoji) s) as [[[o n]|]|]; try discriminate.
  apply N.eqb_eq in H1. subst n. split; [exists o; reflexivity|exact I].
Qed.

Ltac letters st := repeat (apply (rd_cluster st (latin_set st));
  [apply letter_pictured; lia|apply finds_first; destruct st; vm_compute; reflexivity|]).

Lemma hello_reads st : reads st (hello st ++ [Newline]) /\ reads st (hello_cat st ++ [Newline]).
Proof.
  unfold hello_cat, hello, letter. cbn [map app]. split.
  - letters st. apply rd_newline, rd_end.
  - letters st. apply (rd_cluster st Emoji).
    + exists [0x1F638]. split; [vm_compute; reflexivity|left; reflexivity].
    + apply finds_emoji. vm_compute. reflexivity.
    + apply rd_newline, rd_end.
Qed.

Lemma width_bound items : line_width items <= 35 * N.of_nat (length items).
Proof.
  induction items as [|[|gs i cl] rest IH]; cbn [line_width length]; try lia.
  destruct (part_bounds gs i) as [W _]. lia.
Qed.

Definition hello_str : str := [0x68; 0x65; 0x6C; 0x6C; 0x6F; 10].
Definition hello_cat_str : str := [0x68; 0x65; 0x6C; 0x6C; 0x6F; 0x20; 0x1F638; 10].

Theorem C63_readme_hello : forall m fb clip c st,
  cfg_ok m -> is_frbuf fb -> paintable clip -> px (cmin clip) <= cx c -> cx c + 245 < px (cmax clip) ->
  cy c + 31 <= py (cmax clip) -> line_height c = 0 -> cursor_fits m blitstr_fonts c hello_cat_str ->
  let high := match st with StSmall => 24 | _ => 30 end in
  (exists fb', paint_str m blitstr_fonts fb clip c st hello_str
     = Ret (fb', Cursor (Pt (px (cmin clip)) (cy c + high + 1)) 0) /\
     forall x y, x < STORED_WIDTH -> y < LINES -> pixel fb' x y <> pixel fb x y -> cy c <= y < cy c + high) /\
  (exists fb', paint_str m blitstr_fonts fb clip c st hello_cat_str
     = Ret (fb', Cursor (Pt (px (cmin clip)) (cy c + 32 + 1)) 0) /\
     forall x y, x < STORED_WIDTH -> y < LINES -> pixel fb' x y <> pixel fb x y -> cy c <= y < cy c + 32).
Proof.
  intros m fb clip c st Hm Hfb Hp Hx Hfit Hy H0 Hc high.
  destruct (hello_reads st) as [R1 R2].
  assert (W : forall items, one_line items -> line_width items <= 245 -> spelled items ++ [10] = hello_str \/ spelled items ++ [10] = hello_cat_str ->
    reads st (items ++ [Newline]) ->
    exists fb', paint_str m blitstr_fonts fb clip c st (spelled items ++ [10])
      = Ret (fb', Cursor (Pt (px (cmin clip)) (cy c + N.max 24 (line_height_of items) + 1)) 0) /\
      forall x y, x < STORED_WIDTH -> y < LINES -> pixel fb' x y <> pixel fb x y -> cy c <= y < cy c + line_height_of items).
  { intros items O Lw S R.
    destruct (C63_line_height m fb clip c st items Hm Hfb Hp) as (fb' & E & P); try assumption.
    - unfold clip_width. destruct Hp. lia.
    - destruct S as [-> | ->]; [|exact Hc]. destruct Hc as [A B]. split; [exact A|].
      change (str_len hello_str) with 6. change (str_len hello_cat_str) with 11 in B. nia.
    - lia.
    - exists fb'. rewrite H0, N.max_0_l in E. split; [exact E|exact P]. }
  assert (O1 : one_line (hello st)) by (repeat constructor; discriminate).
  assert (O2 : one_line (hello_cat st)) by (repeat constructor; discriminate).
  assert (L1 : line_width (hello st) <= 245) by (pose proof (width_bound (hello st)); cbn [length hello map] in *; lia).
  assert (L2 : line_width (hello_cat st) <= 245) by (pose proof (width_bound (hello_cat st)); cbn [length hello_cat hello app map] in *; lia).
  split.
  - pose proof (W (hello st) O1 L1 (or_introl eq_refl) R1) as X.
    replace (N.max 24 (line_height_of (hello st))) with high in X by (destruct st; reflexivity).
    replace (line_height_of (hello st)) with high in X by (destruct st; reflexivity). exact X.
  - pose proof (W (hello_cat st) O2 L2 (or_intror eq_refl) R2) as X.
    replace (N.max 24 (line_height_of (hello_cat st))) with 32 in X by (destruct st; reflexivity).
    replace (line_height_of (hello_cat st)) with 32 in X by (destruct st; reflexivity). exact X.
Qed.
Print Assumptions C63_readme_hello.

(** C63, what is wrong: "Newlines advance the Cursor downward by the height of the tallest
    glyph on the active line" *)
Theorem C63_newline_advance_refuted : forall m fb, cfg_ok m -> is_frbuf fb ->
  ~ exists fb', paint_str m blitstr_fonts fb full_screen (Cursor (Pt 0 0) 0) StSmall hello_str
                = Ret (fb', Cursor (Pt 0 24) 0).
Proof.
  intros m fb Hm Hfb (fb' & E).
  destruct (C63_readme_hello m fb full_screen (Cursor (Pt 0 0) 0) StSmall Hm Hfb) as [(fb2 & E2 & _) _].
  - unfold paintable; vm_compute; repeat split; congruence.
  - vm_compute; congruence.
  - vm_compute; reflexivity.
  - vm_compute; congruence.
  - reflexivity.
  - clear E. revert m Hm. apply (all_cfgs (fun m => cursor_fits m blitstr_fonts (Cursor (Pt 0 0) 0) hello_cat_str));
      split; vm_compute; congruence.
  - rewrite E in E2. cbn [cx cy cpt px py cmin full_screen cliprect_new] in E2.
    injection E2 as _ H. vm_compute in H. discriminate.
Qed.
Print Assumptions C63_newline_advance_refuted.

(** C63, what is wrong: a newline goes "ahead of any glyph that would get clipped at the
    right edge of the ClipRect", but also ahead of some that would not: a hanzi that
    would take columns 27 to 58 of a clip of 60 columns *)
Theorem C63_wrap_only_clipped_refuted : forall m fb st, cfg_ok m -> is_frbuf fb ->
  let clip := cliprect_new 0 0 60 100 in let c := Cursor (Pt 26 0) 32 in
  cx c + 1 + width (part_used Hanzi 0) <= px (cmax clip) /\
  exists fb', paint_str m blitstr_fonts fb clip c st [0x3447] = Ret (fb', Cursor (Pt 35 33) 32).
Proof.
  intros m fb st Hm Hfb clip c. split; [vm_compute; congruence|].
  assert (R : reads st [Cluster Hanzi 0 [0x3447]]).
  { apply (rd_cluster st Hanzi); [exists [0x3447]; split; [vm_compute; reflexivity|left; reflexivity]| |apply rd_end].
    split; [eexists; vm_compute; reflexivity|]. split; [vm_compute; reflexivity|destruct st; vm_compute; reflexivity]. }
  pose proof (text_shows m fb clip c st [Cluster Hanzi 0 [0x3447]] Hm Hfb) as T.
  assert (P : paintable clip) by (unfold paintable; vm_compute; repeat split; congruence).
  assert (W : 36 <= clip_width clip) by (vm_compute; congruence).
  assert (C : cursor_fits m blitstr_fonts c [0x3447]).
  { clear T. revert m Hm. apply (all_cfgs (fun m => cursor_fits m blitstr_fonts c [0x3447])); split; vm_compute; congruence. }
  specialize (T P W C R).
  assert (E : typeset clip c [Cluster Hanzi 0 [0x3447]] = ([Spot Hanzi 0 1 33], Cursor (Pt 35 33) 32))
    by (vm_compute; reflexivity).
  rewrite E in T. destruct T as (fb' & X & _). exists fb'. exact X.
Qed.
Print Assumptions C63_wrap_only_clipped_refuted.

Example C63_case :
  map (fun st => (line_height_of (hello st), line_height_of (hello_cat st))) [StSmall; StRegular; StBold]
    = [(24, 32); (30, 32); (30, 32)] /\ line_width (hello StSmall) = 43 /\
  spelled (hello StBold) ++ [10] = hello_str /\
  in_lines (Spot Regular 40 1 0) (Spot Hanzi 0 1 31) /\ ~ in_lines (Spot Regular 40 1 0) (Spot Hanzi 0 1 30).
Proof.
  split; [vm_compute; reflexivity|]. split; [vm_compute; reflexivity|]. split; [vm_compute; reflexivity|].
  unfold in_lines, glyph_height; cbn [s_top s_set]. lia.
Qed.
