(** * Properties C19, C20, C21, C26: how paint_str reads a string *)
From Coq Require Import ZArith.
From Verif Require Import Prim PrimFacts Geom Str FontDefs Blit Spec SpecPaint SpecText.
From Verif Require Import ClearProofs BasicProofs LayoutProofs TextProofs FontText PropsClear PropsPaint.

Ltac read_one :=
  match goal with |- choose ?F ?st ?s = _ =>
    let r := eval vm_compute in (choose F st s) in
    let H := fresh in assert (H : choose F st s = r) by (vm_cast_no_check (eq_refl r)); exact H
  end.

(** C19.  [splits F st s1 s2]: s1 is read the same with and without s2 behind it;
    [segmented F st s2]: s2 does not end in an unknown character;
    [fits]: no glyph of s1 starts below the clip. *)
Theorem C19_concatenation : forall m F fb clip c st s1 s2 fb1 c1,
  cfg_ok m -> fontset_ok F -> is_frbuf fb -> paintable clip -> 36 <= clip_width clip ->
  splits F st s1 s2 -> segmented F st s2 -> fits (length s1) F clip st c s1 = true ->
  cursor_fits m F c (s1 ++ s2) ->
  paint_str m F fb clip c st s1 = Ret (fb1, c1) -> cursor_fits m F c1 s2 ->
  paint_str m F fb clip c st (s1 ++ s2) = paint_str m F fb1 clip c1 st s2.
Proof. exact paint_concat. Qed.
Print Assumptions C19_concatenation.

(** "Hi\n" and an unknown character, then a cat *)
Example C19_case : let s1 := [72; 0x378; 105; 10] in let s2 := [0x1F638] in
  splits blitstr_fonts StRegular s1 s2 /\ segmented blitstr_fonts StRegular s2 /\
  fits (length s1) blitstr_fonts ex_clip StRegular ex_cursor s1 = true.
Proof.
  split; [|split; [|vm_compute; reflexivity]].
  - eapply sp_glyph; [discriminate|read_one|read_one|left; reflexivity|].
    eapply sp_glyph; [discriminate|read_one|read_one|right; discriminate|].
    eapply sp_glyph; [discriminate|read_one|read_one|left; reflexivity|].
    constructor. constructor.
  - eapply seg_known; [discriminate|read_one|constructor].
Qed.

(** Without the conditions it is false: "e" then U+0301 are one glyph when painted
    together; an unknown character at the end of s1 is painted more than once; and
    if s1 is cut off at the bottom, s2 may still be painted. *)
Theorem C19_concatenation_refuted : forall m, cfg_ok m ->
  let two (c : cursor) (s1 s2 : str) :=
    r <- paint_str m blitstr_fonts blank ex_clip c StRegular s1 ;;
    r <- paint_str m blitstr_fonts (fst r) ex_clip (snd r) StRegular s2 ;; Ret (snd r) in
  let one (c : cursor) (s : str) :=
    r <- paint_str m blitstr_fonts blank ex_clip c StRegular s ;; Ret (snd r) in
  two ex_cursor [101] [0x301] <> one ex_cursor [101; 0x301] /\
  two ex_cursor [0x378] [97] <> one ex_cursor [0x378; 97] /\
  two (Cursor (Pt 10 98) 0) [97] [0x1F638] <> one (Cursor (Pt 10 98) 0) [97; 0x1F638].
Proof. apply all_cfgs; vm_compute; repeat split; discriminate. Qed.
Print Assumptions C19_concatenation_refuted.

(** C20: for every clip, cursor and build mode, and also if the call panics *)
Theorem C20_style_independent : forall m F fb clip c st1 st2 s,
  (forall gs, font_ok (F gs)) -> no_latin F s ->
  paint_str m F fb clip c st1 s = paint_str m F fb clip c st2 s.
Proof. exact paint_no_latin. Qed.
Print Assumptions C20_style_independent.

Ltac lookup_one :=
  match goal with |- glyph_for ?f ?s = _ =>
    let r := eval vm_compute in (glyph_for f s) in
    let H := fresh in assert (H : glyph_for f s = r) by (vm_cast_no_check (eq_refl r)); exact H
  end.

(** A cat with skin tone, a newline, and a hanzi *)
Example C20_case : no_latin blitstr_fonts [0x1F44B; 0x1F3FD; 10; 0x4E00].
Proof.
  eapply nl_emoji; [discriminate|lookup_one|]. cbn [skipn].
  apply nl_newline.
  eapply nl_hanzi; [discriminate|lookup_one|intros []; lookup_one|lookup_one|]. constructor.
Qed.

(** C21.  [shown F st s s']: s' is s with every unknown character replaced by U+FFFD,
    and s does not end in an unknown character.  Painting s and s' is the same, if
    no glyph starts below the clip. *)
Theorem C21_unknown_is_one_replacement : forall m fb clip c st s s',
  cfg_ok m -> is_frbuf fb -> paintable clip -> 36 <= clip_width clip ->
  shown blitstr_fonts st s s' -> fits (length s) blitstr_fonts clip st c s = true ->
  cursor_fits m blitstr_fonts c s -> cursor_fits m blitstr_fonts c s' ->
  paint_str m blitstr_fonts fb clip c st s = paint_str m blitstr_fonts fb clip c st s'.
Proof. exact paint_unknown. Qed.
Print Assumptions C21_unknown_is_one_replacement.

Example C21_case : shown blitstr_fonts StBold [97; 0x378; 0x10FFFF; 98; 10] [97; 0xFFFD; 0xFFFD; 98; 10] /\
  fits 5 blitstr_fonts ex_clip StBold ex_cursor [97; 0x378; 0x10FFFF; 98; 10] = true.
Proof.
  split; [|vm_compute; reflexivity].
  apply (sh_known _ _ 97 [] [0x378; 0x10FFFF; 98; 10] [0xFFFD; 0xFFFD; 98; 10] Bold) with
    (off := match choose blitstr_fonts StBold [97] with (_, o, _, _) => o end);
    [discriminate|vm_cast_no_check (eq_refl (choose blitstr_fonts StBold [97; 0x378; 0x10FFFF; 98; 10]))
     |vm_cast_no_check (eq_refl (choose blitstr_fonts StBold [97; 0xFFFD; 0xFFFD; 98; 10]))|].
  eapply sh_unknown; [discriminate|read_one|].
  eapply sh_unknown; [discriminate|read_one|].
  apply (sh_known _ _ 98 [] [10] [10] Bold) with
    (off := match choose blitstr_fonts StBold [98] with (_, o, _, _) => o end);
    [discriminate|vm_cast_no_check (eq_refl (choose blitstr_fonts StBold [98; 10]))
     |vm_cast_no_check (eq_refl (choose blitstr_fonts StBold [98; 10]))|].
  apply sh_newline. constructor.
Qed.

(** At the end of the string it is false: the 2-byte character U+0378 is painted
    twice, so the cursor is at 10 + 2 * (18 + 3); U+FFFD moves it by 18 + 3. *)
Theorem C21_trailing_unknown_refuted : forall m, cfg_ok m ->
  let final s := r <- paint_str m blitstr_fonts blank ex_clip ex_cursor StRegular s ;; Ret (snd r) in
  final [0x378] = Ret (Cursor (Pt 52 10) 30) /\
  final [0xFFFD] = Ret (Cursor (Pt 31 10) 30).
Proof. apply all_cfgs; vm_compute; split; reflexivity. Qed.
Print Assumptions C21_trailing_unknown_refuted.

(** Exactly how often: with n iterations of the loop left, an unknown last character
    is painted n times ([place_n]). *)
Theorem C21_trailing_unknown_count : forall F clip st u gs off n c,
  u <> 10 -> choose F st [u] = (gs, off, [u], false) ->
  fits n F clip st c [u] = true ->
  layout n F clip st c [u] = place_n n F clip gs off c.
Proof. exact layout_last_unknown. Qed.
Print Assumptions C21_trailing_unknown_count.

(** C26, boundaries: what a lookup consumes is a non-empty prefix of whole characters,
    so the slice taken there does not panic. *)
Theorem C26_lookup_at_boundary : forall f s,
  font_ok f ->
  get_blit_pattern_offset f s = Ret None \/
  exists off n a t, get_blit_pattern_offset f s = Ret (Some (off, n)) /\
    s = a ++ t /\ a <> [] /\ n = str_len a /\ slice_from s n = Ret t.
Proof. exact lookup_boundary. Qed.
Print Assumptions C26_lookup_at_boundary.

(** C26, progress: an iteration leaves a suffix of the string; if it changed the frame
    buffer and consumed nothing, the string is one unknown character. *)
Theorem C26_iteration_progress : forall m F clip st fb c s fb' c' s',
  (forall gs, font_ok (F gs)) -> s <> [] ->
  paint_step m F clip st fb c s = Ret (fb', c', s') ->
  exists a, s = a ++ s' /\
    (fb' <> fb -> a = [] -> exists u, s = [u] /\
       forall gs, gs = Emoji \/ gs = latin_set st \/ gs = Hanzi -> glyph_for (F gs) s = None).
Proof. exact step_suffix. Qed.
Print Assumptions C26_iteration_progress.

(** C26, termination: after s.len() iterations nothing is left, or the next glyph is
    known and below the clip ([stuck]), or one unknown character is left. *)
Theorem C26_string_consumed : forall m F fb clip c st s,
  cfg_ok m -> fontset_ok F -> is_frbuf fb -> paintable clip -> clip_fits clip -> cursor_fits m F c s ->
  exists fb' c' s',
    paint_rest (N.to_nat (str_len s)) m F clip st fb c s = Ret (fb', c', s') /\
    paint_str m F fb clip c st s = Ret (fb', c') /\
    (s' = [] \/ stuck F clip st c' s' \/ last_unknown F st s').
Proof. exact paint_consumes. Qed.
Print Assumptions C26_string_consumed.

(** The three outcomes occur *)
Example C26_case :
  let run c s := r <- paint_rest (N.to_nat (str_len s)) debug64 blitstr_fonts ex_clip StRegular blank c s ;;
                 Ret (snd r) in
  run ex_cursor ex_text = Ret [] /\
  run (Cursor (Pt 10 98) 0) [97; 98] = Ret [97; 98] /\
  run ex_cursor [97; 0x378] = Ret [0x378].
Proof. vm_compute. repeat split; reflexivity. Qed.
