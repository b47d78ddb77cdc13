(** * Properties C03, C28, C32: the fonts of the crate *)
From Coq Require Import ZArith.
From Verif Require Import Prim PrimFacts Geom Str M3Hash FontDefs Blit Spec SpecPaint.
From Verif Require Import ClearProofs BasicProofs LookupMore PropsClear PropsPaint.

(** C03 *)
Theorem C03_hint_covers_glyphs : forall st b off,
  In b (f_blocks (blitstr_fonts (latin_set st))) -> In off (b_offset b) ->
  gl_h (blitstr_fonts (latin_set st)) off + gl_y (blitstr_fonts (latin_set st)) off
  <= glyph_to_height_hint blitstr_fonts st.
Proof. exact hint_covers. Qed.
Print Assumptions C03_hint_covers_glyphs.

Theorem C03_hint_is_line_height : forall m fb clip c st s off,
  cfg_ok m -> is_frbuf fb -> paintable clip -> px (cmin clip) < 320 ->
  cursor_fits m blitstr_fonts c s -> s <> [] -> nth_error s 0 <> Some 10 ->
  choose blitstr_fonts st s = (latin_set st, off, [], true) -> line_height c = 0 ->
  cy (seek blitstr_fonts clip c (gl_w (blitstr_fonts (latin_set st)) off))
    + gl_y (blitstr_fonts (latin_set st)) off <= py (cmax clip) ->
  exists fb' c', paint_str m blitstr_fonts fb clip c st s = Ret (fb', c') /\
    line_height c' = glyph_to_height_hint blitstr_fonts st.
Proof. exact hint_is_line_height. Qed.
Print Assumptions C03_hint_is_line_height.

Example C03_case :
  map (glyph_to_height_hint blitstr_fonts) [StSmall; StRegular; StBold] = [24; 30; 30] /\
  match choose blitstr_fonts StBold [0x51] with
  | (gs, off, rest, known) => gs = Bold /\ rest = [] /\ known = true /\
     gl_h (blitstr_fonts gs) off + gl_y (blitstr_fonts gs) off = 28
  end.
Proof. vm_compute. repeat split; reflexivity. Qed.

(** C28 *)
Theorem C28_glyph_records : forall gs b off,
  In b (f_blocks (blitstr_fonts gs)) ->
  length (b_hash b) = length (b_offset b) /\
  (In off (b_offset b) ->
   let f := blitstr_fonts gs in
   1 <= gl_w f off <= 32 /\ 1 <= gl_h f off /\ gl_h f off + gl_y f off <= f_max_height f /\
   off + 1 + (gl_w f off * gl_h f off + 31) / 32 <= N.of_nat (length (concat (f_data f)))).
Proof.
  intros gs b off Hb.
  pose proof (fo_blocks _ (fs_fonts _ fonts_ok gs)) as HB. rewrite Forall_forall in HB.
  destruct (HB b Hb) as [H1 _ H3]. split; [exact H1|]. intros Ho f.
  rewrite Forall_forall in H3. destruct (H3 off Ho) as [A B C D]. repeat split; assumption || apply A.
Qed.
Print Assumptions C28_glyph_records.

(** The tables are not empty: number of glyphs and words per font *)
Example C28_case :
  map (fun gs => (fold_right (fun b n => N.of_nat (length (b_offset b)) + n) 0 (f_blocks (blitstr_fonts gs)),
                  fold_right (fun p n => N.of_nat (length p) + n) 0 (f_data (blitstr_fonts gs))))
      [Small; Regular; Bold; Emoji; Hanzi]
  = [(259, 1071); (259, 1412); (259, 1501); (3714, 91228); (8377, 276441)].
Proof. vm_compute. reflexivity. Qed.

(** All five fonts satisfy the well-formedness condition used by the theorems on
    paint_str. *)
Theorem C28_fonts_well_formed : fontset_ok blitstr_fonts.
Proof. exact fonts_ok. Qed.
Print Assumptions C28_fonts_well_formed.

(** C32: a lookup that consumes the characters a used a block b containing the first
    character, and no longer prefix the block tries has its hash in b's table. *)
Theorem C32_longest_match : forall gs s off n a t,
  get_blit_pattern_offset (blitstr_fonts gs) s = Ret (Some (off, n)) ->
  s = a ++ t -> str_len a = n ->
  exists b ch, In b (f_blocks (blitstr_fonts gs)) /\ nth_error s 0 = Some ch /\ b_low b <= ch <= b_high b /\
    In off (b_offset b) /\
    forall l, In l (b_limits b) -> (length a < Nat.min (N.to_nat l) (length s))%nat ->
      ~ In (fst (grapheme_cluster s (f_seed (blitstr_fonts gs)) l)) (b_hash b).
Proof. exact lookup_longest. Qed.
Print Assumptions C32_longest_match.

(** C32: only the first 8 characters matter *)
Theorem C32_prefix_only : forall gs s s',
  firstn 8 s = firstn 8 s' ->
  get_blit_pattern_offset (blitstr_fonts gs) s = get_blit_pattern_offset (blitstr_fonts gs) s'.
Proof. exact lookup_prefix. Qed.
Print Assumptions C32_prefix_only.

(** "e" followed by U+0301 and "x": two characters (3 bytes) are consumed. *)
Example C32_case :
  match get_blit_pattern_offset (blitstr_fonts Regular) [101; 0x301; 120] with
  | Ret (Some (_, n)) => n = 3 | _ => False end /\
  match get_blit_pattern_offset (blitstr_fonts Regular) [101; 120] with
  | Ret (Some (_, n)) => n = 1 | _ => False end.
Proof. vm_compute. split; reflexivity. Qed.
