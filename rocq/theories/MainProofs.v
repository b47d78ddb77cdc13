(** * The generator's main program *)
From Coq Require Import ZArith String Ascii.
From Verif Require Import Prim PrimFacts Str FontDefs SpecPaint SpecCodegen SpecIndex Codegen CodegenText FontCheck Fonts.
From Verif Require Import CgIndex CgFont CgGenerate CgMore SheetIndex SheetCells Sheets SheetFonts.
From Verif Require Import Render SpecRust RenderLex RenderParse RenderRead Config IndexText TextInputs Files RenderFiles.
Local Open Scope N_scope.
Local Open Scope list_scope.
Local Notation length := List.length.

(** ** The committed configuration *)
Definition out_of (gs : glyphset) : list N :=
  lit match gs with
      | Emoji => "../src/fonts/emoji.rs" | Hanzi => "../src/fonts/hanzi.rs"
      | Bold => "../src/fonts/bold.rs" | Regular => "../src/fonts/regular.rs" | Small => "../src/fonts/small.rs"
      end.
Definition png_of (gs : glyphset) : list N :=
  lit match gs with
      | Emoji => "src_data/emoji_13_0.png" | Hanzi => "src_data/hanzi_core2020_g.png"
      | Bold => "src_data/bold.png" | Regular => "src_data/regular.png" | Small => "src_data/small.png"
      end.
Definition set_of (gs : glyphset) : config_set :=
  let mk name size cols gutter border legal index index_type aliases trim :=
    ConfigSet (lit name) 0 (png_of gs) size cols gutter border (lit legal) (lit index) (lit index_type)
      (lit aliases) (lit trim) (out_of gs) in
  match gs with
  | Emoji => mk "Emoji" 32%Z 16%Z 0%Z 0%Z "src_data/twemoji_legal.txt" "src_data/emoji_13_0_index.txt" "txt-row-major"
               "src_data/emoji_13_0_aliases.txt" "proportional"
  | Hanzi => mk "Hanzi" 32%Z 20%Z 2%Z 2%Z "src_data/noto_sans_sc_legal.txt" "src_data/hanzi_core2020_g_index.txt"
               "txt-row-major" "" "CJK"
  | Bold => mk "Bold" 30%Z 16%Z 2%Z 2%Z "src_data/chicago_legal.txt" "src_data/latin_index.json" "json-grid-coord"
              "src_data/latin_aliases.txt" "proportional"
  | Regular => mk "Regular" 30%Z 16%Z 2%Z 2%Z "src_data/geneva_legal.txt" "src_data/latin_index.json" "json-grid-coord"
              "src_data/latin_aliases.txt" "proportional"
  | Small => mk "Small" 24%Z 16%Z 2%Z 2%Z "src_data/geneva_legal.txt" "src_data/latin_index.json" "json-grid-coord"
              "src_data/latin_aliases.txt" "proportional"
  end%string.
Definition config_order : list glyphset := [Emoji; Hanzi; Bold; Regular; Small].

Lemma config_read : new_config committed_files config_name = Ret (map set_of config_order).
Proof. vm_cast_no_check (eq_refl (Ret (map set_of config_order))). Qed.

Definition latin_charspecs : list charspec := map (fun '(hex, row, col) => CharSpec (bytes hex []) row col) latin_map.
Lemma latin_read g : cg_index g = lit "src_data/latin_index.json" ->
  read_json_cluster_map committed_files g = Ret latin_charspecs.
Proof.
  intros E. unfold read_json_cluster_map. rewrite E. clear g E.
  vm_cast_no_check (eq_refl (Ret latin_charspecs)).
Qed.

Definition job_of (gs : glyphset) : font_job :=
  FontJob (font_spec gs) (png_of gs) (legal_of gs) (font_charspecs gs) (font_gcaliases gs) (out_of gs).

Lemma font_of_latin g legal legal_text :
  cg_legal g = legal -> legal <> [] -> committed_files legal = Some legal_text ->
  cg_index g = lit "src_data/latin_index.json" -> cg_index_type g = lit "json-grid-coord" ->
  cg_aliases g = lit "src_data/latin_aliases.txt" ->
  font_of committed_files g =
  Ret (FontJob (FontSpec (string_of (cg_name g)) (cg_size g) (cg_cols g) (cg_gutter g) (cg_border g)
                         (string_of (cg_trim g)) (cg_seed g))
               (cg_sprites g) (trim_space legal_text) latin_charspecs
               (emoji_aliases_of (text_of latin_aliases_txt)) (cg_out g)).
Proof.
  intros E1 N1 E2 E3 E4 E5. unfold font_of.
  assert (R1 : read_legal committed_files g = Ret (trim_space legal_text)).
  { unfold read_legal. rewrite E1. destruct legal as [|c l]; [contradiction|]. unfold read_file. rewrite E2. reflexivity. }
  assert (R2 : grapheme_cluster_map committed_files g = Ret latin_charspecs).
  { unfold grapheme_cluster_map. rewrite E4. destruct (list_eq_dec _ _ _) as [H|_]; [discriminate H|].
    destruct (list_eq_dec _ _ _) as [_|H]; [|contradiction H; reflexivity]. apply latin_read. exact E3. }
  assert (R3 : grapheme_cluster_aliases committed_files g = Ret (emoji_aliases_of (text_of latin_aliases_txt))).
  { unfold grapheme_cluster_aliases. rewrite E5. reflexivity. }
  rewrite R1. cbn [bind]. rewrite R2. cbn [bind]. rewrite R3. cbn [bind]. reflexivity.
Qed.

Lemma read_committed name t : committed_files name = Some t -> read_file committed_files name = Ret t.
Proof. intros E. unfold read_file. rewrite E. reflexivity. Qed.

(** A set with a text index; [al] is what its alias file gives *)
Lemma font_of_text g legal legal_text index_text al :
  cg_legal g = legal -> legal <> [] -> committed_files legal = Some legal_text ->
  cg_index_type g = lit "txt-row-major" -> committed_files (cg_index g) = Some index_text ->
  grapheme_cluster_aliases committed_files g = Ret al ->
  font_of committed_files g =
  Ret (FontJob (FontSpec (string_of (cg_name g)) (cg_size g) (cg_cols g) (cg_gutter g) (cg_border g)
                         (string_of (cg_trim g)) (cg_seed g))
               (cg_sprites g) (trim_space legal_text) (emoji_map (cg_cols g) index_text) al (cg_out g)).
Proof.
  intros E1 N1 E2 E3 E4 R3. unfold font_of.
  assert (R1 : read_legal committed_files g = Ret (trim_space legal_text)).
  { unfold read_legal. rewrite E1. destruct legal as [|c l]; [contradiction|]. rewrite (read_committed _ _ E2). reflexivity. }
  assert (R2 : grapheme_cluster_map committed_files g = Ret (emoji_map (cg_cols g) index_text)).
  { unfold grapheme_cluster_map. rewrite E3. destruct (list_eq_dec _ _ _) as [_|H]; [|contradiction H; reflexivity].
    rewrite (read_committed _ _ E4). reflexivity. }
  rewrite R1. cbn [bind]. rewrite R2. cbn [bind]. rewrite R3. cbn [bind]. reflexivity.
Qed.

Lemma aliases_read g name t : cg_aliases g = name -> name <> [] -> committed_files name = Some t ->
  grapheme_cluster_aliases committed_files g = Ret (emoji_aliases_of t).
Proof.
  intros E N0 F. unfold grapheme_cluster_aliases. rewrite E. destruct name as [|c l]; [contradiction|].
  rewrite (read_committed _ _ F). reflexivity.
Qed.
Lemma emoji_aliases_read : grapheme_cluster_aliases committed_files (set_of Emoji) = Ret (emoji_aliases_of (text_of emoji_aliases_txt)).
Proof. exact (aliases_read (set_of Emoji) _ (text_of emoji_aliases_txt) eq_refl ltac:(discriminate) eq_refl). Qed.
Lemma hanzi_aliases_read : grapheme_cluster_aliases committed_files (set_of Hanzi) = Ret [].
Proof. reflexivity. Qed.

Lemma job_read gs : font_of committed_files (set_of gs) = Ret (job_of gs).
Proof.
  destruct gs.
  - exact (font_of_text (set_of Emoji) _ (text_of twemoji_legal_txt) (text_of emoji_index_txt) _ eq_refl ltac:(discriminate)
             eq_refl eq_refl eq_refl emoji_aliases_read).
  - exact (font_of_latin (set_of Bold) _ (text_of chicago_legal_txt) eq_refl ltac:(discriminate) eq_refl eq_refl eq_refl eq_refl).
  - exact (font_of_latin (set_of Regular) _ (text_of geneva_legal_txt) eq_refl ltac:(discriminate) eq_refl eq_refl eq_refl eq_refl).
  - exact (font_of_latin (set_of Small) _ (text_of geneva_legal_txt) eq_refl ltac:(discriminate) eq_refl eq_refl eq_refl eq_refl).
  - exact (font_of_text (set_of Hanzi) _ (text_of noto_sans_sc_legal_txt) (text_of hanzi_index_txt) _ eq_refl ltac:(discriminate)
             eq_refl eq_refl eq_refl hanzi_aliases_read).
Qed.

Lemma map_res_map {A B C} (f : B -> res C) (h : A -> B) (g : A -> C) l :
  (forall a, f (h a) = Ret (g a)) -> map_res f (map h l) = Ret (map g l).
Proof. intros H. induction l as [|a l IH]; [reflexivity|]. cbn [map map_res]. rewrite H. cbn [bind]. rewrite IH. reflexivity. Qed.

Lemma jobs_read : (c <- new_config committed_files config_name ;; fonts committed_files c) = Ret (map job_of config_order).
Proof. rewrite config_read. cbn [bind]. unfold fonts. apply map_res_map. exact job_read. Qed.

(** ** Text is produced exactly when the font is *)
Lemma code_text_ok printable seed pl : forall dataLen g g', fold_res (add_pattern seed) pl g = Ret g' ->
  exists code, code_text printable dataLen pl = Ret code.
Proof.
  induction pl as [|p pl IH]; intros dataLen g g' E; cbn [fold_res] in E.
  - eexists. reflexivity.
  - apply bind_ret_inv in E. destruct E as (g1 & E1 & E). cbn [code_text].
    assert (C : exists cl, cluster_of (bp_cs p) = Ret cl).
    { unfold add_pattern in E1. apply bind_ret_inv in E1. destruct E1 as (cl & Ec & _). exists cl. exact Ec. }
    destruct C as (cl & ->). cbn [bind].
    match goal with |- context [code_text printable ?n pl] => destruct (IH n _ _ E) as (more & ->) end.
    cbn [bind]. eexists. reflexivity.
Qed.

Lemma text_when_font printable fs legal img csl al :
  match generate fs img csl al with
  | Ret _ => exists text, generate_text printable fs legal img csl al = Ret text
  | Panic => generate_text printable fs legal img csl al = Panic
  end.
Proof.
  unfold generate, generate_text.
  destruct (pattern_list img fs csl) as [pl|]; cbn [bind]; [|reflexivity].
  destruct (new_glyph_set_from pl (fs_seed fs)) as [g|] eqn:Eg; cbn [bind]; [|reflexivity].
  destruct (code_text_ok printable (fs_seed fs) pl 0 _ _ Eg) as (code & ->). cbn [bind].
  destruct (add_aliases g al (fs_seed fs)) as [g'|]; cbn [bind]; [|reflexivity].
  eexists. reflexivity.
Qed.

(** ** Limits are lengths of clusters *)
Lemma hash_aliases_in seed stored pairs stored' : hash_aliases seed stored pairs stored' ->
  forall cl off, In (cl, off) stored' -> (exists o, In (cl, o) stored) \/ In cl (map snd pairs).
Proof.
  induction 1 as [st|st canon alias off rest st' c k Ik Sk I E H IH]; intros cl off0 I0.
  - left. eauto.
  - destruct (IH _ _ I0) as [(o & I1)|I1].
    + apply in_app_or in I1. destruct I1 as [I1|[I1|[]]]; [left; eauto|]. injection I1 as <- _. right. left. reflexivity.
    + right. right. exact I1.
Qed.

Lemma limits_are_lengths fs img csl al fnt b n :
  generate fs img csl al = Ret fnt -> In b (f_blocks fnt) -> In n (b_limits b) ->
  exists cl, n = N.of_nat (length cl) /\
    ((exists cs, In cs csl /\ string_from_hex_gc (cs_hex cs) = Ret cl) \/
     (exists a, In a al /\ string_from_hex_gc (alias_hex a) = Ret cl)).
Proof.
  intros E Ib In_. unfold generate in E.
  apply bind_ret_inv in E. destruct E as (pl & Epl & E).
  apply bind_ret_inv in E. destruct E as (g0 & Eg & E).
  apply bind_ret_inv in E. destruct E as (g & Ea & E). injection E as <-.
  destruct (new_set_inv _ _ _ Eg) as (cls & Fc & _ & _ & Hh0).
  unfold add_aliases in Ea. apply bind_ret_inv in Ea. destruct Ea as (ix & Ei & Ea). injection Ea as <-.
  destruct (add_aliases_inv _ _ _ _ _ Hh0 Ei) as (pairs & stored & Fp & W & Hh).
  set (g := GlyphSet (gs_code g0) (gs_len g0) ix) in *.
  apply (blocks_of_font fs g (fs_seed fs) stored Hh) in Ib. destruct Ib as (k & Ik & ->).
  pose proof (ho_perm _ _ _ Hh k (ho_known _ _ _ Hh k Ik)) as P.
  destruct k as [lo hi]. cbn [render_block b_limits] in In_. apply lengths_in in In_. destruct In_ as (e & Ie & <-).
  eapply Permutation.Permutation_in in Ie; [|exact P]. apply in_map_iff in Ie.
  destruct Ie as ([cl off] & <- & I). apply in_block_in in I. destruct I as [I _].
  exists cl. split; [reflexivity|].
  destruct (hash_aliases_in _ _ _ _ W _ _ I) as [(o & I1)|I1].
  - left. apply in_combine_l in I1. pose proof (pattern_list_cs _ _ _ _ Epl) as Ec.
    clear - Fc I1 Ec. subst csl. induction Fc as [|p c pl cls E F IH]; [destruct I1|]. destruct I1 as [->|I1].
    + exists (bp_cs p). split; [left; reflexivity|exact E].
    + destruct (IH I1) as (cs & I & H). exists cs. split; [right; exact I|exact H].
  - right. clear - Fp I1. induction Fp as [|a p al pairs E F IH]; [destruct I1|]. destruct I1 as [<-|I1].
    + exists a. split; [left; reflexivity|exact (proj2 E)].
    + destruct (IH I1) as (a' & I & H). exists a'. split; [right; exact I|exact H].
Qed.

(** ** Reading a generated file *)
Lemma chars_lit s : chars s = lit s.
Proof. induction s as [|a s IH]; [reflexivity|]. cbn [chars lit]. rewrite IH. reflexivity. Qed.

Lemma text_reads printable fs legal img csl al fnt :
  printable 10 = false -> (0 <= fs_size fs < 256)%Z -> fs_seed fs < 2 ^ 32 ->
  name_ok (chars (fs_name fs)) -> only_comments legal ->
  (forall cs cl, In cs csl -> string_from_hex_gc (cs_hex cs) = Ret cl -> N.of_nat (length cl) < 2 ^ 32) ->
  (forall a cl, In a al -> string_from_hex_gc (alias_hex a) = Ret cl -> N.of_nat (length cl) < 2 ^ 32) ->
  generate fs img csl al = Ret fnt ->
  exists text, generate_text printable fs legal img csl al = Ret text /\
    read_rust (chars (fs_name fs)) text = Some (constants_of fnt).
Proof.
  intros Hp Hs Hd Hn Hl Lc La E. rewrite chars_lit in *. apply generated_text_reads; try assumption.
  - destruct Hn as [N0 F]. unfold is_word. destruct (lit (fs_name fs)); [contradiction|exact F].
  - apply Forall_forall. intros b Ib. apply Forall_forall. intros n I.
    destruct (limits_are_lengths _ _ _ _ _ _ _ E Ib I) as (cl & -> & [(cs & I1 & H)|(a & I1 & H)]);
      [exact (Lc _ _ I1 H)|exact (La _ _ I1 H)].
Qed.

(** ** The committed fonts *)
Definition limits_okb (fnt : font) : bool := forallb (fun b => forallb (fun n => n <? 2 ^ 32) (b_limits b)) (f_blocks fnt).
Lemma committed_limits gs : limits_okb (blitstr_fonts gs) = true.
Proof. destruct gs; vm_cast_no_check (eq_refl true). Qed.

Lemma committed_reads printable legal outside gs :
  printable 10 = false -> only_comments legal ->
  exists text, generate_text printable (font_spec gs) legal (sheet_of outside gs) (font_charspecs gs) (font_gcaliases gs) = Ret text /\
    read_rust (chars (fs_name (font_spec gs))) text = Some (constants_of (blitstr_fonts gs)).
Proof.
  intros Hp Hl. rewrite chars_lit. apply generated_text_reads; try assumption.
  - destruct gs; cbn [font_spec fs_size]; lia.
  - destruct gs; reflexivity.
  - destruct gs; reflexivity.
  - apply sheet_generates.
  - pose proof (committed_limits gs) as H. unfold limits_okb in H. rewrite forallb_forall in H.
    apply Forall_forall. intros b Ib. specialize (H b Ib). rewrite forallb_forall in H.
    apply Forall_forall. intros n I. apply N.ltb_lt. exact (H n I).
Qed.

Lemma legal_comments gs : only_comments (legal_of gs).
Proof.
  assert (H : match tokens (legal_of gs) with [] => true | _ => false end = true) by (destruct gs; vm_cast_no_check (eq_refl true)).
  unfold only_comments. destruct (tokens (legal_of gs)); [reflexivity|discriminate].
Qed.

(** The characters the three smaller files show must be printable *)
Definition shows (printable : N -> bool) (gs : glyphset) : Prop :=
  forall cl r, In cl (font_index gs ++ map snd (font_aliases gs)) -> cl <> [0xAD] -> cl <> [0xA0] -> In r cl ->
  printable r = true.

Lemma latin_text printable gs file outside : latin_file gs = Some file -> shows printable gs ->
  generate_text printable (font_spec gs) (legal_of gs) (sheet_of outside gs) (font_charspecs gs) (font_gcaliases gs) = Ret file.
Proof.
  intros I Hs. rewrite <- (latin_generated gs file outside I).
  destruct (sheet_parts gs) as (rs & stored & _ & F & Fa & _).
  assert (A : forall cl, In cl (font_index gs ++ map snd (font_aliases gs)) -> agree printable (fun _ => true) cl).
  { intros cl Ic. unfold agree. destruct (list_eq_dec N.eq_dec cl [0xAD]) as [|N1]; [auto|].
    destruct (list_eq_dec N.eq_dec cl [0xA0]) as [|N2]; [auto|]. right. right. intros r Ir. exact (Hs cl r Ic N1 N2 Ir). }
  apply generate_text_ext.
  - assert (A' : forall cl, In cl (font_index gs) -> agree printable (fun _ => true) cl)
      by (intros cl Ic; apply A, in_or_app; left; exact Ic).
    clear - F A'. induction F as [|cs cl csl cls E F IH]; constructor.
    + intros cl' E'. unfold cluster_of in E'. rewrite E in E'. injection E' as <-. apply A'. left. reflexivity.
    + apply IH. intros c Ic. apply A'. right. exact Ic.
  - assert (A' : forall cl, In cl (map snd (font_aliases gs)) -> agree printable (fun _ => true) cl)
      by (intros cl Ic; apply A, in_or_app; right; exact Ic).
    clear - Fa A'. induction Fa as [|a p al ps E F IH]; constructor.
    + intros cl' E'. rewrite (proj2 E) in E'. injection E' as <-. apply A'. left. reflexivity.
    + apply IH. intros c Ic. apply A'. right. exact Ic.
Qed.

(** ** A run *)
Definition announce (out : list N) : list N := lit "Writing to " ++ out ++ [10].

Lemma write_fonts_spec printable im jobs :
  exists done rest,
    jobs = done ++ rest /\
    Forall2 (fun j w => fst w = fj_out j /\ render_job printable im j = Ret (snd w)) done (r_writes (write_fonts printable im jobs)) /\
    r_prints (write_fonts printable im jobs) = flat_map (fun j => announce (fj_out j)) done /\
    (r_ok (write_fonts printable im jobs) = true -> rest = []) /\
    (r_ok (write_fonts printable im jobs) = false -> exists j later, rest = j :: later /\ render_job printable im j = Panic).
Proof.
  induction jobs as [|j jobs (done & rest & IH1 & IH2 & IH3 & IH4)].
  - exists [], []. repeat split; [constructor|discriminate].
  - cbn [write_fonts]. destruct (render_job printable im j) as [code|] eqn:E.
    + exists (j :: done), rest. subst jobs. set (r := write_fonts printable im (done ++ rest)) in *.
      cbn [r_writes r_prints r_ok]. split; [reflexivity|]. split; [|split].
      * constructor; [|exact IH2]. split; [reflexivity|exact E].
      * cbn [flat_map]. rewrite IH3. unfold announce. rewrite <- !app_assoc. reflexivity.
      * exact IH4.
    + exists [], (j :: jobs). cbn [r_writes r_prints r_ok]. repeat split; [constructor|discriminate|]. eauto.
Qed.

Lemma run_committed printable outside arg0 :
  printable 10 = false ->
  let r := go_main printable committed_files (committed_images outside) [arg0; confirm] in
  r_ok r = true /\ map fst (r_writes r) = map out_of config_order /\
  r_prints r = flat_map (fun gs => announce (out_of gs)) config_order /\
  Forall2 (fun gs w => read_rust (chars (fs_name (font_spec gs))) (snd w) = Some (constants_of (blitstr_fonts gs)) /\
                       (shows printable gs -> forall file, latin_file gs = Some file -> snd w = file))
          config_order (r_writes r).
Proof.
  intros Hp. cbv zeta. unfold go_main. destruct (list_eq_dec N.eq_dec confirm confirm) as [_|n]; [|contradiction n; reflexivity].
  unfold codegen. rewrite jobs_read.
  assert (J : forall gs, exists text, render_job printable (committed_images outside) (job_of gs) = Ret text /\
    read_rust (chars (fs_name (font_spec gs))) text = Some (constants_of (blitstr_fonts gs)) /\
    (shows printable gs -> forall file, latin_file gs = Some file -> text = file)).
  { intros gs. destruct (committed_reads printable (legal_of gs) outside gs Hp (legal_comments gs)) as (text & E & R).
    exists text. split; [|split; [exact R|]].
    - unfold render_job. cbn [job_of fj_sprites fj_spec fj_legal fj_csl fj_aliases].
      assert (P : read_png (committed_images outside) (png_of gs) = Ret (sheet_of outside gs)) by (destruct gs; reflexivity).
      rewrite P. cbn [bind]. exact E.
    - intros Hs file If. pose proof (latin_text printable gs file outside If Hs) as T. rewrite E in T. injection T as ->. reflexivity. }
  generalize config_order. intros order. induction order as [|gs order (IH1 & IH2 & IH3 & IH4)].
  - repeat split. constructor.
  - destruct (J gs) as (text & E & R). cbn [map write_fonts]. rewrite E.
    set (r := write_fonts printable (committed_images outside) (map job_of order)) in *.
    cbn [r_ok r_writes r_prints map fst flat_map job_of fj_out]. split; [exact IH1|]. split; [rewrite IH2; reflexivity|]. split.
    + rewrite IH3. unfold announce. rewrite <- !app_assoc. reflexivity.
    + constructor; [exact R|exact IH4].
Qed.

(** ** A run on any input *)
Definition needs_confirm (args : list (list N)) : Prop := forall a, args <> [a; confirm].

Lemma unconfirmed printable fl im args : needs_confirm args -> go_main printable fl im args = usage fl.
Proof.
  intros H. destruct args as [|a [|b [|c t]]]; try reflexivity. cbn [go_main].
  destruct (list_eq_dec N.eq_dec b confirm) as [->|]; [contradiction (H a); reflexivity|reflexivity].
Qed.

Lemma confirmed printable fl im a : go_main printable fl im [a; confirm] = codegen printable fl im.
Proof. cbn [go_main]. destruct (list_eq_dec N.eq_dec confirm confirm) as [_|n]; [reflexivity|contradiction n; reflexivity]. Qed.

Lemma usage_writes fl : r_writes (usage fl) = [].
Proof. unfold usage. destruct (bind _ _); reflexivity. Qed.

Lemma map_res_length {A B} (f : A -> res B) l : forall l', map_res f l = Ret l' -> Forall2 (fun a b => f a = Ret b) l l'.
Proof.
  induction l as [|a l IH]; intros l' E; cbn [map_res] in E.
  - injection E as <-. constructor.
  - apply bind_ret_inv in E. destruct E as (b & Eb & E). apply bind_ret_inv in E. destruct E as (t & Et & E).
    injection E as <-. constructor; [exact Eb|exact (IH _ Et)].
Qed.

Lemma font_of_parts fl g j : font_of fl g = Ret j ->
  fj_sprites j = cg_sprites g /\ fj_out j = cg_out g /\
  fs_name (fj_spec j) = string_of (cg_name g) /\ fs_size (fj_spec j) = cg_size g /\ fs_seed (fj_spec j) = cg_seed g.
Proof.
  unfold font_of. intros E. apply bind_ret_inv in E. destruct E as (legal & _ & E).
  apply bind_ret_inv in E. destruct E as (csl & _ & E). apply bind_ret_inv in E. destruct E as (al & _ & E).
  injection E as <-. repeat split.
Qed.

(** The writes of a run: an initial part of the configured sets, in order *)
Lemma run_spec printable fl im a sets jobs :
  new_config fl config_name = Ret sets -> fonts fl sets = Ret jobs ->
  let r := go_main printable fl im [a; confirm] in
  exists done rest, jobs = done ++ rest /\
    Forall2 (fun j w => fst w = fj_out j /\ render_job printable im j = Ret (snd w)) done (r_writes r) /\
    r_prints r = flat_map (fun j => announce (fj_out j)) done /\
    (r_ok r = true -> rest = []) /\
    (r_ok r = false -> exists j later, rest = j :: later /\ render_job printable im j = Panic).
Proof.
  intros E1 E2. cbv zeta. rewrite confirmed. unfold codegen. rewrite E1. cbn [bind]. rewrite E2.
  apply write_fonts_spec.
Qed.

Lemma run_unread printable fl im args : (c <- new_config fl config_name ;; fonts fl c) = Panic ->
  go_main printable fl im args = Run [] [] false.
Proof.
  intros E. unfold go_main, usage, codegen. rewrite E.
  destruct args as [|a [|b [|c t]]]; try reflexivity. destruct (list_eq_dec _ _ _); reflexivity.
Qed.

(** What a job is told by its set and the files the set names *)
Lemma font_of_same fl fl' g :
  fl (cg_legal g) = fl' (cg_legal g) -> fl (cg_index g) = fl' (cg_index g) -> fl (cg_aliases g) = fl' (cg_aliases g) ->
  font_of fl g = font_of fl' g.
Proof.
  intros E1 E2 E3. unfold font_of.
  assert (R1 : read_legal fl g = read_legal fl' g).
  { unfold read_legal. destruct (cg_legal g) eqn:E; [reflexivity|]. unfold read_file. rewrite E1. reflexivity. }
  assert (R2 : grapheme_cluster_map fl g = grapheme_cluster_map fl' g).
  { unfold grapheme_cluster_map, read_json_cluster_map, read_file. rewrite E2. reflexivity. }
  assert (R3 : grapheme_cluster_aliases fl g = grapheme_cluster_aliases fl' g).
  { unfold grapheme_cluster_aliases. destruct (cg_aliases g) eqn:E; [reflexivity|]. unfold read_file. rewrite E3. reflexivity. }
  rewrite R1, R2, R3. reflexivity.
Qed.

Lemma Forall2_app_split {A B} (R : A -> B -> Prop) l l1 l2 : Forall2 R l (l1 ++ l2) ->
  exists k1 k2, l = k1 ++ k2 /\ Forall2 R k1 l1 /\ Forall2 R k2 l2.
Proof. intros F. apply Forall2_app_inv_r in F. destruct F as (k1 & k2 & F1 & F2 & E). exists k1, k2. auto. Qed.

(** The n-th file written comes from the n-th set alone *)
Lemma write_of_set printable fl im a sets n w :
  new_config fl config_name = Ret sets ->
  nth_error (r_writes (go_main printable fl im [a; confirm])) n = Some w ->
  exists g j, nth_error sets n = Some g /\ font_of fl g = Ret j /\ fst w = cg_out g /\
    render_job printable im j = Ret (snd w).
Proof.
  intros E1 Hn. destruct (fonts fl sets) as [jobs|] eqn:E2.
  2: { rewrite run_unread in Hn; [destruct n; discriminate|]. rewrite E1. exact E2. }
  destruct (run_spec printable fl im a sets jobs E1 E2) as (done & rest & -> & F & _).
  pose proof (map_res_length _ _ _ E2) as G. apply Forall2_app_split in G. destruct G as (k1 & k2 & -> & G & _).
  clear - Hn F G. revert n k1 G Hn. induction F as [|j w0 done ws [H1 H2] F IH]; intros n k1 G Hn; [destruct n; discriminate|].
  inversion G as [|g j' gs' dn Eg G']; subst. destruct n as [|n]; cbn [nth_error app] in *.
  - injection Hn as ->. exists g, j. split; [reflexivity|]. split; [exact Eg|]. split; [|exact H2].
    rewrite H1. exact (proj1 (proj2 (font_of_parts _ _ _ Eg))).
  - exact (IH n _ G' Hn).
Qed.

Lemma write_same printable fl im a fl' im' a' sets sets' n w w' g :
  new_config fl config_name = Ret sets -> new_config fl' config_name = Ret sets' ->
  nth_error sets n = Some g -> nth_error sets' n = Some g ->
  fl (cg_legal g) = fl' (cg_legal g) -> fl (cg_index g) = fl' (cg_index g) -> fl (cg_aliases g) = fl' (cg_aliases g) ->
  im (cg_sprites g) = im' (cg_sprites g) ->
  nth_error (r_writes (go_main printable fl im [a; confirm])) n = Some w ->
  nth_error (r_writes (go_main printable fl' im' [a'; confirm])) n = Some w' ->
  w = w'.
Proof.
  intros E E' Eg Eg' L1 L2 L3 L4 H H'.
  destruct (write_of_set _ _ _ _ _ _ _ E H) as (g1 & j & G1 & J1 & O1 & R1).
  destruct (write_of_set _ _ _ _ _ _ _ E' H') as (g2 & j' & G2 & J2 & O2 & R2).
  rewrite Eg in G1. injection G1 as <-. rewrite Eg' in G2. injection G2 as <-.
  rewrite (font_of_same fl fl' g L1 L2 L3) in J1. rewrite J1 in J2. injection J2 as <-.
  destruct (font_of_parts _ _ _ J1) as (S1 & _).
  unfold render_job in R1, R2. rewrite S1 in R1, R2. unfold read_png in R1, R2. rewrite L4 in R1.
  destruct w as [o t], w' as [o' t']. cbn [fst snd] in *. subst. rewrite R1 in R2. injection R2 as ->. reflexivity.
Qed.

(** Every file written is readable and has the constants of the generated font *)
Lemma write_reads printable fl im a sets n w :
  printable 10 = false -> new_config fl config_name = Ret sets ->
  nth_error (r_writes (go_main printable fl im [a; confirm])) n = Some w ->
  exists g j img fnt, nth_error sets n = Some g /\ fst w = cg_out g /\ font_of fl g = Ret j /\
    im (cg_sprites g) = Some img /\ generate (fj_spec j) img (fj_csl j) (fj_aliases j) = Ret fnt /\
    ((0 <= cg_size g < 256)%Z -> cg_seed g < 2 ^ 32 -> name_ok (chars (string_of (cg_name g))) -> only_comments (fj_legal j) ->
     (forall cs cl, In cs (fj_csl j) -> string_from_hex_gc (cs_hex cs) = Ret cl -> N.of_nat (length cl) < 2 ^ 32) ->
     (forall al cl, In al (fj_aliases j) -> string_from_hex_gc (alias_hex al) = Ret cl -> N.of_nat (length cl) < 2 ^ 32) ->
     read_rust (chars (string_of (cg_name g))) (snd w) = Some (constants_of fnt)).
Proof.
  intros Hp E H. destruct (write_of_set _ _ _ _ _ _ _ E H) as (g & j & G & J & O & R).
  destruct (font_of_parts _ _ _ J) as (S1 & _ & S3 & S4 & S5).
  unfold render_job in R. rewrite S1 in R. unfold read_png in R.
  destruct (im (cg_sprites g)) as [img|] eqn:Ei; [|discriminate R]. cbn [bind] in R.
  pose proof (text_when_font printable (fj_spec j) (fj_legal j) img (fj_csl j) (fj_aliases j)) as T.
  destruct (generate (fj_spec j) img (fj_csl j) (fj_aliases j)) as [fnt|] eqn:Ef; [|rewrite R in T; discriminate T].
  exists g, j, img, fnt. split; [exact G|]. split; [exact O|]. split; [exact J|]. split; [exact Ei|]. split; [exact Ef|].
  intros Hs Hd Hn Hl Lc La. rewrite <- S3, <- S4, <- S5 in *.
  destruct (text_reads printable _ _ _ _ _ _ Hp Hs Hd Hn Hl Lc La Ef) as (text & Et & Er).
  rewrite R in Et. injection Et as ->. exact Er.
Qed.

(** The list of files the tool would write is printed *)
Lemma usage_lists fl sets jobs : new_config fl config_name = Ret sets -> fonts fl sets = Ret jobs ->
  usage fl = Run [] (usage_text confirm jobs ++ nl) true /\ map fj_out jobs = map cg_out sets.
Proof.
  intros E1 E2. split; [unfold usage; rewrite E1; cbn [bind]; rewrite E2; reflexivity|].
  pose proof (map_res_length _ _ _ E2) as F. clear - F. induction F as [|g j gs js E F IH]; [reflexivity|].
  cbn [map]. rewrite IH. f_equal. exact (proj1 (proj2 (font_of_parts _ _ _ E))).
Qed.

Lemma Forall2_weaken {A B} (P Q : A -> B -> Prop) l l' : (forall a b, P a b -> Q a b) -> Forall2 P l l' -> Forall2 Q l l'.
Proof. intros H F. induction F; constructor; auto. Qed.

Lemma latin_files_written printable outside arg0 : printable 10 = false ->
  (forall cl r, In cl (IndexLatin.latin_index ++ map snd IndexLatin.latin_aliases) -> cl <> [0xAD] -> cl <> [0xA0] -> In r cl ->
   printable r = true) ->
  let r := go_main printable committed_files (committed_images outside) [arg0; confirm] in
  exists emoji hanzi, r_writes r =
    [(out_of Emoji, emoji); (out_of Hanzi, hanzi);
     (out_of Bold, text_of TextBold.bold_rs);
     (out_of Regular, text_of TextRegular.regular_rs);
     (out_of Small, text_of TextSmall.small_rs)].
Proof.
  intros Hp Hs. destruct (run_committed printable outside arg0 Hp) as (_ & H2 & _ & H4). cbv zeta in *.
  set (ws := r_writes _) in *. clearbody ws. unfold config_order in *.
  do 5 (let w := fresh "w" in let o := fresh "o" in destruct ws as [|[o w] ws]; [discriminate H2|]). destruct ws; [|discriminate H2].
  cbn [map fst] in H2. injection H2 as -> -> -> -> ->.
  repeat match goal with H : Forall2 _ (_ :: _) (_ :: _) |- _ => inversion_clear H end. cbn [snd] in *.
  exists w, w0.
  rewrite (proj2 H0 Hs _ eq_refl), (proj2 H2 Hs _ eq_refl), (proj2 H3 Hs _ eq_refl). reflexivity.
Qed.

(** An example of a run that stops *)
Lemma stops_at_hanzi :
  let im name := if list_eq_dec N.eq_dec name (png_of Hanzi) then None else committed_images (fun _ _ => 0) name in
  let r := go_main (fun _ => false) committed_files im [[]; confirm] in
  map fst (r_writes r) = [out_of Emoji] /\ r_ok r = false.
Proof.
  cbv zeta. rewrite confirmed. unfold codegen. rewrite jobs_read. unfold config_order. cbn [map].
  set (im := fun name : list N => _).
  destruct (committed_reads (fun _ => false) (legal_of Emoji) (fun _ _ => 0) Emoji eq_refl (legal_comments Emoji)) as (text & E & _).
  assert (R1 : render_job (fun _ => false) im (job_of Emoji) = Ret text).
  { unfold render_job. cbn [job_of fj_sprites fj_spec fj_legal fj_csl fj_aliases].
    assert (P : read_png im (png_of Emoji) = Ret (sheet_of (fun _ _ => 0) Emoji)) by reflexivity.
    rewrite P. cbn [bind]. exact E. }
  assert (R2 : render_job (fun _ => false) im (job_of Hanzi) = Panic) by reflexivity.
  cbn [write_fonts]. rewrite R1, R2. split; reflexivity.
Qed.
