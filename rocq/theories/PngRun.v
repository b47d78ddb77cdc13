(** * A run of the generator that reads its images from PNG files *)
From Coq Require Import ZArith String.
From Verif Require Import Prim PrimFacts Str FontDefs SpecPaint SpecSheet SpecCodegen Codegen CodegenText Render Config.
From Verif Require Import Fonts CgMore SheetCells Sheets SheetFonts Files SpecRust RenderRead RenderFiles MainProofs Png PngFiles PngSheets PngCheck.
Local Open Scope N_scope.
Local Open Scope list_scope.

(** main.go:60-72: readPNGFile, of the files there are *)
Definition images_in (fl : files) : images := fun name =>
  match fl name with
  | Some b => match png_decode b with Ret p => Some (png_image p) | Panic => None end
  | None => None
  end.

(** ** Only black pixels matter *)
Definition same_ink (a b : image) : Prop :=
  img_max_y a = img_max_y b /\ forall x y, (img_red a x y =? 0) = (img_red b x y =? 0).

Lemma pattern_list_ink a b f csl : same_ink a b -> pattern_list a f csl = pattern_list b f csl.
Proof.
  intros [M H]. unfold pattern_list. induction csl as [|cs t IH]; [reflexivity|]. cbn [map_res]. rewrite IH.
  assert (E : new_blit_pattern a f cs = new_blit_pattern b f cs); [|rewrite E; reflexivity].
  unfold new_blit_pattern. rewrite M.
  assert (G : grid_cell a f (cs_row cs) (cs_col cs) = grid_cell b f (cs_row cs) (cs_col cs)); [|rewrite G; reflexivity].
  unfold grid_cell. apply map_ext. intros y. apply map_ext. intros x. rewrite H. reflexivity.
Qed.
Lemma generate_text_ink printable f legal a b csl al : same_ink a b ->
  generate_text printable f legal a csl al = generate_text printable f legal b csl al.
Proof. intros S. unfold generate_text. rewrite (pattern_list_ink a b f csl S). reflexivity. Qed.

Lemma shows_same img gs : shows_rows img (sheet_width gs) (sheet_rows gs) -> same_ink img (sheet_of (img_red img) gs).
Proof.
  intros [M H]. split; [exact M|]. intros x y. unfold sheet_of, sheet_image. cbn [img_red].
  destruct ((0 <=? x) && (x <? Z.of_N (sheet_width gs)) && (0 <=? y) && (y <? Z.of_nat (length (sheet_rows gs))))%Z%bool eqn:C; [|reflexivity].
  apply andb_prop in C. destruct C as [C C4]. apply andb_prop in C. destruct C as [C C3]. apply andb_prop in C. destruct C as [C1 C2].
  specialize (H x y ltac:(lia) ltac:(lia)). destruct (black (sheet_rows gs) (Z.to_nat x) (Z.to_nat y)).
  - apply N.eqb_eq, H. reflexivity.
  - change (0xFFFF =? 0) with false. apply N.eqb_neq. intros Q. apply H in Q. discriminate.
Qed.

(** ** More files do not matter *)
Definition has_files (fl : files) : Prop := forall name text, committed_files name = Some text -> fl name = Some text.

Section Extended.
  Variables fl fl' : files.
  Hypothesis Ext : forall name text, fl name = Some text -> fl' name = Some text.

  Lemma read_file_ext name t : Config.read_file fl name = Ret t -> Config.read_file fl' name = Ret t.
  Proof.
    unfold Config.read_file. destruct (fl name) as [x|] eqn:E; [|discriminate]. intros Q. rewrite (Ext _ _ E). exact Q.
  Qed.
  Lemma read_bind_ext {B} name (k : list N -> res B) b : (t <- Config.read_file fl name ;; k t) = Ret b -> (t <- Config.read_file fl' name ;; k t) = Ret b.
  Proof.
    intros E. apply bind_ret_inv in E. destruct E as (t & E1 & E2). rewrite (read_file_ext _ _ E1). exact E2.
  Qed.
  Lemma font_of_ext g j : font_of fl g = Ret j -> font_of fl' g = Ret j.
  Proof.
    unfold font_of. intros E. apply bind_ret_inv in E. destruct E as (legal & E1 & E).
    apply bind_ret_inv in E. destruct E as (csl & E2 & E). apply bind_ret_inv in E. destruct E as (al & E3 & E).
    assert (F1 : read_legal fl' g = Ret legal).
    { unfold read_legal in *. destruct (cg_legal g); [exact E1|]. apply read_bind_ext, E1. }
    assert (F2 : grapheme_cluster_map fl' g = Ret csl).
    { unfold grapheme_cluster_map in *. destruct (list_eq_dec N.eq_dec (cg_index_type g) (lit "txt-row-major")); [apply read_bind_ext, E2|].
      destruct (list_eq_dec N.eq_dec (cg_index_type g) (lit "json-grid-coord")); [|discriminate].
      unfold read_json_cluster_map in *. apply read_bind_ext, E2. }
    assert (F3 : grapheme_cluster_aliases fl' g = Ret al).
    { unfold grapheme_cluster_aliases in *. destruct (cg_aliases g); [exact E3|]. apply read_bind_ext, E3. }
    rewrite F1. cbn [bind]. rewrite F2. cbn [bind]. rewrite F3. exact E.
  Qed.
  Lemma fonts_ext c js : fonts fl c = Ret js -> fonts fl' c = Ret js.
  Proof.
    unfold fonts. revert js. induction c as [|g c IH]; intros js E; cbn [map_res] in *; [exact E|].
    apply bind_ret_inv in E. destruct E as (j & E1 & E). apply bind_ret_inv in E. destruct E as (t & E2 & E).
    rewrite (font_of_ext _ _ E1). cbn [bind]. rewrite (IH _ E2). exact E.
  Qed.
  Lemma jobs_ext js : (c <- new_config fl config_name ;; fonts fl c) = Ret js -> (c <- new_config fl' config_name ;; fonts fl' c) = Ret js.
  Proof.
    intros E. apply bind_ret_inv in E. destruct E as (c & E1 & E2).
    assert (F : new_config fl' config_name = Ret c) by (unfold new_config in *; apply read_bind_ext, E1).
    rewrite F. cbn [bind]. apply fonts_ext, E2.
  Qed.
End Extended.

(** ** The run *)
Lemma run_shown printable fl im arg0 : printable 10 = false -> has_files fl ->
  (forall gs, exists img, im (png_of gs) = Some img /\ shows_rows img (sheet_width gs) (sheet_rows gs)) ->
  let r := go_main printable fl im [arg0; confirm] in
  r_ok r = true /\ map fst (r_writes r) = map out_of config_order /\
  r_prints r = flat_map (fun gs => announce (out_of gs)) config_order /\
  Forall2 (fun gs w => read_rust (chars (fs_name (font_spec gs))) (snd w) = Some (constants_of (blitstr_fonts gs)) /\
                       (shows printable gs -> forall file, latin_file gs = Some file -> snd w = file))
          config_order (r_writes r).
Proof.
  intros Hp Hf Hi. cbv zeta. rewrite confirmed. unfold codegen. rewrite (jobs_ext _ _ Hf _ jobs_read).
  assert (J : forall gs, exists text, render_job printable im (job_of gs) = Ret text /\
    read_rust (chars (fs_name (font_spec gs))) text = Some (constants_of (blitstr_fonts gs)) /\
    (shows printable gs -> forall file, latin_file gs = Some file -> text = file)).
  { intros gs. destruct (Hi gs) as (img & Ei & Si). apply shows_same in Si.
    destruct (committed_reads printable (legal_of gs) (img_red img) gs Hp (legal_comments gs)) as (text & E & R).
    exists text. split; [|split; [exact R|]].
    - unfold render_job. cbn [job_of fj_sprites fj_spec fj_legal fj_csl fj_aliases]. unfold read_png. rewrite Ei. cbn [bind].
      rewrite (generate_text_ink _ _ _ _ _ _ _ Si). exact E.
    - intros Hs file If. pose proof (latin_text printable gs file (img_red img) If Hs) as T. rewrite E in T. injection T as ->. reflexivity. }
  generalize config_order. intros order. induction order as [|gs order (IH1 & IH2 & IH3 & IH4)].
  - repeat split. constructor.
  - destruct (J gs) as (text & E & R). cbn [map write_fonts]. rewrite E.
    set (r := write_fonts printable im (map job_of order)) in *.
    cbn [r_ok r_writes r_prints map fst flat_map job_of fj_out]. split; [exact IH1|]. split; [rewrite IH2; reflexivity|]. split.
    + rewrite IH3. unfold announce. rewrite <- !app_assoc. reflexivity.
    + constructor; [exact R|exact IH4].
Qed.

(** The bytes of the Latin sheets *)
Definition latin_png (gs : glyphset) : option (list N) :=
  match gs with
  | Bold => Some (file_bytes bold_file) | Regular => Some (file_bytes regular_file) | Small => Some (file_bytes small_file)
  | Emoji | Hanzi => None
  end.
Lemma latin_png_decodes gs b : latin_png gs = Some b ->
  exists p, png_decode b = Ret p /\ ph_width (p_header p) = sheet_width gs /\ shows_rows (png_image p) (sheet_width gs) (sheet_rows gs).
Proof.
  intros E. apply sheet_sound. destruct gs; cbn [latin_png] in E; try discriminate; injection E as <-.
  - exact bold_sheet_ok.
  - exact regular_sheet_ok.
  - exact small_sheet_ok.
Qed.

Lemma run_bytes printable fl arg0 : printable 10 = false -> has_files fl ->
  (forall gs b, latin_png gs = Some b -> fl (png_of gs) = Some b) ->
  (forall gs, latin_png gs = None -> exists b p, fl (png_of gs) = Some b /\ png_decode b = Ret p /\
     shows_rows (png_image p) (sheet_width gs) (sheet_rows gs)) ->
  let r := go_main printable fl (images_in fl) [arg0; confirm] in
  r_ok r = true /\ map fst (r_writes r) = map out_of config_order /\
  r_prints r = flat_map (fun gs => announce (out_of gs)) config_order /\
  Forall2 (fun gs w => read_rust (chars (fs_name (font_spec gs))) (snd w) = Some (constants_of (blitstr_fonts gs)) /\
                       (shows printable gs -> forall file, latin_file gs = Some file -> snd w = file))
          config_order (r_writes r).
Proof.
  intros Hp Hf Hl Ho. apply run_shown; [exact Hp|exact Hf|]. intros gs. unfold images_in.
  destruct (latin_png gs) as [b|] eqn:E.
  - rewrite (Hl gs b E). destruct (latin_png_decodes gs b E) as (p & -> & _ & S). eexists. split; [reflexivity|exact S].
  - destruct (Ho gs E) as (b & p & -> & -> & S). eexists. split; [reflexivity|exact S].
Qed.
