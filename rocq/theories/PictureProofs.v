(** * What painting a cluster shows is its picture *)
From Coq Require Import ZArith.
From Verif Require Import PrimFacts Str M3Hash Geom FontDefs Blit Spec SpecPaint SpecCodegen SpecSheet SpecIndex SpecLines SpecPictures.
From Verif Require Import Codegen CodegenText LinesProofs Fonts LookupProofs IndexProofs FontsOk CgMore CgGenerate SheetCells Sheets SheetFonts IndexText.

Lemma charspec_place gs n cs : nth_error (font_charspecs gs) n = Some cs ->
  picture_place gs n = (Z.to_nat (cs_row cs), Z.to_nat (cs_col cs)).
Proof.
  assert (D : forall k text, (0 < k)%nat -> nth_error (emoji_map (Z.of_nat k) text) n = Some cs ->
    (n / k, n mod k)%nat = (Z.to_nat (cs_row cs), Z.to_nat (cs_col cs))).
  { intros k text Hk E. apply map_positions in E; [|lia]. unfold row_major in E.
    injection E as -> ->. rewrite <- Nat2Z.inj_div, <- Nat2Z.inj_mod, !Nat2Z.id. reflexivity. }
  assert (L : nth_error (map (fun '(hex, row, col) => CharSpec (bytes hex []) row col) latin_map) n = Some cs ->
    match nth_error latin_map n with Some (_, row, col) => (Z.to_nat row, Z.to_nat col) | None => (O, O) end
    = (Z.to_nat (cs_row cs), Z.to_nat (cs_col cs))).
  { rewrite nth_error_map. destruct (nth_error latin_map n) as [[[hex row] col]|]; [|discriminate].
    cbn [option_map]. intros E. injection E as <-. reflexivity. }
  destruct gs; cbn [font_charspecs picture_place]; try exact L.
  - apply (D 16%nat). lia.
  - apply (D 20%nat). lia.
Qed.

Lemma picture_cell gs n cs : nth_error (font_charspecs gs) n = Some cs ->
  picture gs n = cut_out (sheet_rows gs) (cell_size (font_spec gs))
    (g_border (font_spec gs) + Z.to_nat (cs_col cs) * g_step (font_spec gs))
    (g_border (font_spec gs) + Z.to_nat (cs_row cs) * g_step (font_spec gs)).
Proof.
  intros E. apply charspec_place in E. unfold picture. rewrite E.
  assert (K : exists b st sz, g_border (font_spec gs) = b /\ g_step (font_spec gs) = st /\ cell_size (font_spec gs) = sz)
    by (repeat eexists).
  destruct gs.
  all: match goal with |- context [font_spec ?g] =>
    let b := eval vm_compute in (g_border (font_spec g)) in
    let st := eval vm_compute in (g_step (font_spec g)) in
    let sz := eval vm_compute in (cell_size (font_spec g)) in
    change (g_border (font_spec g)) with b; change (g_step (font_spec g)) with st;
    change (cell_size (font_spec g)) with sz
  end.
  all: rewrite !(Nat.mul_comm (Z.to_nat _)); reflexivity.
Qed.

Lemma charspec_of gs n cl : nth_error (font_index gs) n = Some cl ->
  exists cs, nth_error (font_charspecs gs) n = Some cs.
Proof.
  intros E. destruct (sheet_parts gs) as (rs & stored & _ & F & _). apply Forall2_length' in F.
  assert (L : (n < length (font_charspecs gs))%nat) by (rewrite F; apply nth_error_Some; congruence).
  apply nth_error_Some in L. destruct (nth_error (font_charspecs gs) n) as [cs|]; [exists cs; reflexivity|congruence].
Qed.

Lemma cluster_drawn gs i cl : pictured gs i cl ->
  exists off x, glyph_for (blitstr_fonts gs) cl = Some (off, length cl) /\
    draws (blitstr_fonts gs) off (picture gs i) x.
Proof.
  intros (canon & E & H). destruct (charspec_of gs i canon E) as (cs & Ec).
  destruct (sheet_glyphs gs (fun _ _ => 0) i cs canon Ec E) as (off & x & G & D & _).
  rewrite <- (picture_cell gs i cs Ec) in D. destruct H as [->|H].
  - exists off, x. split; assumption.
  - destruct (alias_found gs canon cl H) as (off' & G1 & G2). exists off, x. split; [|exact D].
    rewrite G2. congruence.
Qed.

Lemma cluster_drawn_lookup gs i cl : pictured gs i cl ->
  exists off x, get_blit_pattern_offset (blitstr_fonts gs) cl = Ret (Some (off, str_len cl)) /\
    draws (blitstr_fonts gs) off (picture gs i) x.
Proof.
  intros H. destruct (cluster_drawn gs i cl H) as (off & x & G & D). exists off, x. split; [|exact D].
  apply lookup_all. exact G.
Qed.

(** ** Which font *)
Definition unknown (gs : glyphset) (cl : str) : bool :=
  match glyph_for (blitstr_fonts gs) cl with None => true | Some _ => false end.
Lemma unknown_none gs cl : unknown gs cl = true -> glyph_for (blitstr_fonts gs) cl = None.
Proof. unfold unknown. destruct (glyph_for _ _); [discriminate|reflexivity]. Qed.
Definition plain (cl : str) : bool :=
  match cl with [] => false | 10 :: _ => false | _ => true end.

Lemma emoji_plain : forallb plain (font_index Emoji ++ map snd (font_aliases Emoji)) = true.
Proof. vm_cast_no_check (eq_refl true). Qed.
Lemma latin_checked : forallb (fun cl => plain cl && (unknown Emoji cl || inb cl [[0xA9]; [0xAE]]))
  (IndexLatin.latin_index ++ map snd IndexLatin.latin_aliases) = true.
Proof. vm_cast_no_check (eq_refl true). Qed.
Lemma hanzi_first : forallb (fun cl => plain cl && unknown Emoji cl && unknown Small cl
  && unknown Regular cl && unknown Bold cl) (font_index Hanzi) = true.
Proof. vm_cast_no_check (eq_refl true). Qed.

Lemma plain_ok cl : plain cl = true -> cl <> [] /\ nth_error cl 0 <> Some 10.
Proof.
  destruct cl as [|a t]; [discriminate|]. intros H. split; [discriminate|]. cbn [nth_error].
  intros E. injection E as ->. discriminate.
Qed.

Lemma pictured_in gs i cl : pictured gs i cl -> In cl (font_index gs ++ map snd (font_aliases gs)).
Proof.
  intros (canon & E & H). apply in_or_app. destruct H as [->|H].
  - left. eapply nth_error_In; exact E.
  - right. apply in_map_iff. exists (canon, cl). split; [reflexivity|exact H].
Qed.

Lemma pictured_choice st gs i cl off : pictured gs i cl -> painted_with st gs cl ->
  glyph_for (blitstr_fonts gs) cl = Some (off, length cl) ->
  cl <> [] /\ nth_error cl 0 <> Some 10 /\ choose blitstr_fonts st cl = (gs, off, [], true).
Proof.
  intros P W G. pose proof (pictured_in gs i cl P) as I.
  assert (LT : gs = latin_set st /\ cl <> [0xA9] /\ cl <> [0xAE] ->
               In cl (IndexLatin.latin_index ++ map snd IndexLatin.latin_aliases) ->
               cl <> [] /\ nth_error cl 0 <> Some 10 /\ choose blitstr_fonts st cl = (gs, off, [], true)).
  { intros (-> & Ne1 & Ne2) J. pose proof latin_checked as C. rewrite forallb_forall in C. specialize (C cl J).
    apply andb_prop in C. destruct C as [C1 C2]. destruct (plain_ok cl C1) as [N1 N2].
    split; [exact N1|]. split; [exact N2|].
    assert (U : unknown Emoji cl = true).
    { apply orb_prop in C2. destruct C2 as [C2|C2]; [exact C2|]. apply inb_in in C2.
      destruct C2 as [<-|[<-|[]]]; congruence. }
    unfold choose. rewrite (unknown_none Emoji cl U), G, skipn_all. reflexivity. }
  destruct gs; cbn [painted_with] in W.
  - pose proof emoji_plain as C. rewrite forallb_forall in C. destruct (plain_ok cl (C cl I)) as [N1 N2].
    split; [exact N1|]. split; [exact N2|]. unfold choose. rewrite G, skipn_all. reflexivity.
  - apply LT; assumption.
  - apply LT; assumption.
  - apply LT; assumption.
  - cbn [font_aliases map] in I. rewrite app_nil_r in I. pose proof hanzi_first as C.
    rewrite forallb_forall in C. specialize (C cl I). rewrite !andb_true_iff in C.
    destruct C as [[[[C1 C2] C3] C4] C5]. destruct (plain_ok cl C1) as [N1 N2].
    split; [exact N1|]. split; [exact N2|]. 
    assert (NL : glyph_for (blitstr_fonts (latin_set st)) cl = None).
    { apply unknown_none. destruct st; assumption. }
    unfold choose. rewrite (unknown_none Emoji cl C2), NL, G, skipn_all. reflexivity.
Qed.

Lemma paint_picture m fb clip c st gs i cl :
  cfg_ok m -> is_frbuf fb -> paintable clip -> px (cmin clip) < 320 -> cursor_fits m blitstr_fonts c cl ->
  pictured gs i cl -> painted_with st gs cl ->
  exists off x, get_blit_pattern_offset (blitstr_fonts gs) cl = Ret (Some (off, str_len cl)) /\
  let c1 := seek blitstr_fonts clip c (gl_w (blitstr_fonts gs) off) in
  (cy c1 + gl_y (blitstr_fonts gs) off <= py (cmax clip) ->
   exists fb', paint_str m blitstr_fonts fb clip c st cl = Ret (fb', after blitstr_fonts gs off c1) /\ is_frbuf fb' /\
    forall X Y, X < STORED_WIDTH -> Y < LINES ->
      pixel fb' X Y = xorb (pixel fb X Y)
        ((cx c1 + 1 <=? X) && (cy c1 <=? Y) && (py (cmin clip) <=? Y) && (Y <? py (cmax clip))
         && is_set (picture gs i) (N.to_nat (Y - cy c1)) (x + N.to_nat (X - (cx c1 + 1))))).
Proof.
  intros Hm Hfb Hp Hx Hc P W. destruct (cluster_drawn gs i cl P) as (off & x & G & D).
  exists off, x. split; [apply lookup_all; exact G|]. intros c1 Hy.
  destruct (pictured_choice st gs i cl off P W G) as (N1 & N2 & Ec).
  exact (paint_draws m blitstr_fonts fb clip c st cl gs off (picture gs i) x Hm fonts_ok Hfb Hp Hx Hc N1 N2 Ec D Hy).
Qed.

(** ** U+A9 and U+AE *)
Lemma copyright_emoji st s : In s [[0xA9]; [0xAE]] ->
  exists off, choose blitstr_fonts st s = (Emoji, off, [], true).
Proof.
  intros I. assert (E : exists off, glyph_for (blitstr_fonts Emoji) s = Some (off, length s)).
  { destruct I as [<-|[<-|[]]]; vm_compute; eexists; reflexivity. }
  destruct E as (off & E). exists off. unfold choose. rewrite E, skipn_all. reflexivity.
Qed.
