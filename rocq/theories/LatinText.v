(** * Painting Latin text *)
From Coq Require Import ZArith.
From Verif Require Import FbFacts Str M3Hash FontDefs Blit Spec SpecPaint SpecText SpecIndex.
From Verif Require Import LayoutProofs TextProofs FontText IndexLatin IndexProofs PairProofs.

(** ** C33 *)
Lemma layout_same_letters clip st s s' : same_letters s s' -> forall n n' c,
  (length s <= n)%nat -> (length s' <= n')%nat ->
  layout n blitstr_fonts clip st c s = layout n' blitstr_fonts clip st c s'.
Proof.
  intros H. induction H as [|t t' H IH|ch t t' Hc H IH|canon alias u v t t' Hin Hu Hv H IH]; intros n n' c Hn Hn'.
  - destruct n, n'; reflexivity.
  - simpl in Hn, Hn'. destruct n as [|n], n' as [|n']; try lia.
    cbn [layout N.eqb Pos.eqb]. apply IH; lia.
  - simpl in Hn, Hn'. destruct n as [|n], n' as [|n']; try lia.
    apply latin_chars_in in Hc. pose proof (latin_not_newline ch Hc) as Hne.
    destruct (same_letters_good t t' H) as [G G'].
    cbn [layout]. apply N.eqb_neq in Hne. rewrite Hne.
    rewrite !choose_latin by assumption. cbv zeta.
    destruct (_ <? _); [reflexivity|]. rewrite (IH n n') by lia. reflexivity.
  - destruct (same_letters_good t t' H) as [G G'].
    destruct (choose_forms st canon alias t Hin G) as (off & C1 & C2).
    destruct (choose_forms st canon alias t' Hin G') as (off' & C1' & C2').
    assert (Eoff : off = off').
    { destruct (alias_cases canon alias Hin) as (x & a & d & -> & _ & Hx & _ & _ & _ & Ex).
      cbn [app] in C1, C1'. rewrite choose_latin in C1, C1' by assumption. congruence. }
    subst off'.
    assert (Cu : choose blitstr_fonts st (u ++ t) = (latin_set st, off, t, true)) by (destruct Hu; subst u; assumption).
    assert (Cv : choose blitstr_fonts st (v ++ t') = (latin_set st, off, t', true)) by (destruct Hv; subst v; assumption).
    assert (Shape : forall w, w = canon \/ w = alias -> exists ch w', w = ch :: w' /\ ch <> 10).
    { intros w Hw. destruct (alias_cases canon alias Hin) as (x & a & d & -> & -> & Hx & Ha & _).
      destruct Hw as [-> | ->]; eexists; eexists; (split; [reflexivity|apply latin_not_newline; assumption]). }
    destruct (Shape u Hu) as (cu & u' & -> & Hu10). destruct (Shape v Hv) as (cv & v' & -> & Hv10).
    cbn [app length] in *. rewrite app_length in Hn, Hn'.
    destruct n as [|n], n' as [|n']; try lia.
    cbn [layout]. apply N.eqb_neq in Hu10, Hv10. rewrite Hu10, Hv10, Cu, Cv. cbv zeta.
    destruct (_ <? _); [reflexivity|]. rewrite (IH n n') by lia. reflexivity.
Qed.

Lemma paint_same_letters m fb clip c st s s' :
  cfg_ok m -> is_frbuf fb -> paintable clip -> 36 <= clip_width clip ->
  same_letters s s' -> cursor_fits m blitstr_fonts c s -> cursor_fits m blitstr_fonts c s' ->
  paint_str m blitstr_fonts fb clip c st s = paint_str m blitstr_fonts fb clip c st s'.
Proof.
  intros Hm Hfb Hclip Hw Hsl Hc Hc'.
  pose proof (paint_refines m blitstr_fonts fb clip c st s Hm fonts_ok Hfb Hclip Hw Hc) as R.
  pose proof (paint_refines m blitstr_fonts fb clip c st s' Hm fonts_ok Hfb Hclip Hw Hc') as R'.
  pose proof (str_len_ge s). pose proof (str_len_ge s').
  rewrite (layout_same_letters clip st s s' Hsl _ (N.to_nat (str_len s'))) in R by lia.
  destruct (layout (N.to_nat (str_len s')) blitstr_fonts clip st c s') as [ps c2].
  destruct R as (fbA & EA & HA & PA). destruct R' as (fbB & EB & HB & PB).
  rewrite EA, EB. f_equal. f_equal. apply pixel_ext; [assumption|assumption|].
  intros x y Hx Hy. rewrite PA, PB by assumption. reflexivity.
Qed.

(** ** ASCII text: one glyph per character, its own *)
Lemma ascii_layout clip st s : ascii_text s -> forall n c, (length s <= n)%nat ->
  fits n blitstr_fonts clip st c s = true ->
  map (fun p => (p_set p, p_off p)) (fst (layout n blitstr_fonts clip st c s)) =
  map (fun ch => (latin_set st, latin_glyph st ch)) (filter (fun ch => negb (ch =? 10)) s).
Proof.
  induction 1 as [|ch s Hc Hs IH]; intros n c Hn Hf; [destruct n; reflexivity|].
  simpl in Hn. destruct n as [|n]; [lia|]. cbn [layout fits filter] in *.
  destruct Hc as [->|Hc].
  - cbn [N.eqb Pos.eqb negb] in *. apply IH; [lia|exact Hf].
  - assert (Hne : (ch =? 10) = false) by (unfold printable in Hc; lia). rewrite Hne in *. cbn [negb map].
    rewrite choose_ascii in * by (try apply ascii_text_lt; assumption). cbv zeta in *.
    apply andb_prop in Hf as [Hf1 Hf2].
    destruct (N.ltb_spec (py (cmax clip))
      (p_y (placed_at blitstr_fonts (latin_set st) (latin_glyph st ch)
              (seek blitstr_fonts clip c (gl_w (blitstr_fonts (latin_set st)) (latin_glyph st ch)))))) as [Hlt|_];
      [apply N.leb_le in Hf1; lia|].
    specialize (IH n _ ltac:(lia) Hf2).
    destruct (layout n _ _ _ _ s) as [ps c']. cbn [fst map placed_at p_set p_off] in *. rewrite IH. reflexivity.
Qed.

(** the glyph of a character is the record at its place in the index *)
Lemma latin_glyph_index st c : printable c ->
  exists i, nth_error latin_index i = Some [c] /\
            latin_glyph st c = nth i (starts (blitstr_fonts (latin_set st))) 0.
Proof.
  intros H. apply printable_chars, latin_chars_in in H. apply In_nth_error in H as (i & Hi).
  exists i. split; [exact Hi|]. rewrite <- (latin_index_st st) in Hi.
  destruct (index_found (latin_set st)) as [_ F]. unfold latin_glyph. rewrite (F i _ Hi). reflexivity.
Qed.
