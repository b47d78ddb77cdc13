(** * C57, C58, C59: the files the generator writes *)
From Coq Require Import ZArith String.
From Verif Require Import Prim Str FontDefs Codegen CodegenText Fonts IndexLatin SheetIndex Sheets.
From Verif Require Import Render SpecRust Config TextInputs TextSmall Files RenderLex RenderFiles MainProofs.
From Verif Require Import IndexProofs SpecCodegen SpecIndex CgFont SheetFonts PropsCodegen.
Local Open Scope N_scope.
Local Open Scope list_scope.
Local Notation length := List.length.

(** C57: the text of a generated font file, read as Rust, has exactly the constants of
    the generated font: its height, seed, match arms with limits, hash and offset
    tables, and data.  [printable] is strconv.IsPrint; of it, only that a line feed is
    not printable matters. *)
Theorem C57_file_reads_as_font : forall printable fs legal img csl al fnt,
  printable 10 = false -> (0 <= fs_size fs < 256)%Z -> fs_seed fs < 2 ^ 32 ->
  name_ok (chars (fs_name fs)) -> only_comments legal ->
  (forall cs cl, In cs csl -> string_from_hex_gc (cs_hex cs) = Ret cl -> N.of_nat (length cl) < 2 ^ 32) ->
  (forall a cl, In a al -> string_from_hex_gc (alias_hex a) = Ret cl -> N.of_nat (length cl) < 2 ^ 32) ->
  generate fs img csl al = Ret fnt ->
  exists text, generate_text printable fs legal img csl al = Ret text /\
    read_rust (chars (fs_name fs)) text = Some (constants_of fnt).
Proof. exact text_reads. Qed.
Print Assumptions C57_file_reads_as_font.

(** C57: text is produced exactly when the font is *)
Theorem C57_text_when_font : forall printable fs legal img csl al,
  (exists text, generate_text printable fs legal img csl al = Ret text) <->
  (exists fnt, generate fs img csl al = Ret fnt).
Proof.
  intros printable fs legal img csl al. pose proof (text_when_font printable fs legal img csl al) as H.
  destruct (generate fs img csl al) as [fnt|]; split; intros (x & E); try discriminate E.
  - exists fnt. reflexivity.
  - exact H.
  - rewrite H in E. discriminate E.
Qed.
Print Assumptions C57_text_when_font.

(** C57: the committed sheets, with any notice *)
Theorem C57_committed_fonts : forall printable legal outside gs,
  printable 10 = false -> only_comments legal ->
  exists text, generate_text printable (font_spec gs) legal (sheet_of outside gs) (font_charspecs gs) (font_gcaliases gs) = Ret text /\
    read_rust (chars (fs_name (font_spec gs))) text = Some (constants_of (blitstr_fonts gs)).
Proof. exact committed_reads. Qed.
Print Assumptions C57_committed_fonts.

(** C57: a notice that is not a comment, or a font name that is not a word, gives text
    which is not a font file *)
Theorem C57_any_notice_refuted : exists fs legal legal' name' img csl al fnt text text',
  generate fs img csl al = Ret fnt /\ only_comments legal /\
  generate_text (fun _ => false) fs legal' img csl al = Ret text /\ read_rust (chars (fs_name fs)) text = None /\
  let fs' := FontSpec name' (fs_size fs) (fs_cols fs) (fs_gutter fs) (fs_border fs) (fs_glyph_trim fs) (fs_seed fs) in
  generate_text (fun _ => false) fs' legal img csl al = Ret text' /\ read_rust (chars name') text' = None.
Proof.
  exists case_spec, (chars "// Notice"), (chars "Notice"), "Noto Sans"%string, case_img, case_list, case_aliases.
  eexists _, _, _. split; [vm_compute; reflexivity|]. split; [vm_compute; reflexivity|].
  split; [vm_compute; reflexivity|]. split; [vm_compute; reflexivity|].
  cbv zeta. split; [vm_compute; reflexivity|]. vm_compute; reflexivity.
Qed.
Print Assumptions C57_any_notice_refuted.

(** A small font; and the committed src/fonts/small.rs read from its bytes *)
Example C57_case : exists fnt text,
  generate case_spec case_img case_list case_aliases = Ret fnt /\
  generate_text (fun c => negb (c =? 10)) case_spec (chars "// Notice") case_img case_list case_aliases = Ret text /\
  read_rust (chars "Test") text = Some (constants_of fnt) /\
  f_blocks fnt <> [] /\ f_max_height fnt = 4.
Proof.
  eexists _, _. split; [vm_compute; reflexivity|]. split; [vm_compute; reflexivity|].
  split; [vm_compute; reflexivity|]. split; [discriminate|reflexivity].
Qed.

Definition same_constants (a b : constants) : bool :=
  (k_max_height a =? k_max_height b) && (k_seed a =? k_seed b) && eqlist (k_data a) (k_data b)
  && eqlist (flat_map (fun b => b_low b :: b_high b :: b_limits b ++ b_hash b ++ b_offset b) (k_blocks a))
            (flat_map (fun b => b_low b :: b_high b :: b_limits b ++ b_hash b ++ b_offset b) (k_blocks b)).
Example C57_case_small :
  match read_rust (chars "Small") (text_of small_rs) with
  | Some k => same_constants k (constants_of (blitstr_fonts Small))
  | None => false
  end = true.
Proof. vm_cast_no_check (eq_refl true). Qed.

(** C58: "go run main.go --write" on the committed files writes the five font files,
    each of which reads as the committed font.  If the characters of the Latin index are
    printable (except the lone soft hyphen and no-break space, which are not asked about),
    bold.rs, regular.rs and small.rs are the committed ones, byte for byte. *)
Theorem C58_write_committed : forall printable outside arg0, printable 10 = false ->
  let r := go_main printable committed_files (committed_images outside) [arg0; chars "--write"] in
  r_ok r = true /\
  map fst (r_writes r) = [chars "../src/fonts/emoji.rs"; chars "../src/fonts/hanzi.rs"; chars "../src/fonts/bold.rs";
                          chars "../src/fonts/regular.rs"; chars "../src/fonts/small.rs"] /\
  Forall2 (fun gs w => read_rust (chars (fs_name (font_spec gs))) (snd w) = Some (constants_of (blitstr_fonts gs)))
          [Emoji; Hanzi; Bold; Regular; Small] (r_writes r) /\
  r_prints r = chars "Writing to ../src/fonts/emoji.rs
Writing to ../src/fonts/hanzi.rs
Writing to ../src/fonts/bold.rs
Writing to ../src/fonts/regular.rs
Writing to ../src/fonts/small.rs
".
Proof.
  intros printable outside arg0 Hp.
  destruct (run_committed printable outside arg0 Hp) as (H1 & H2 & H3 & H4). cbv zeta.
  split; [exact H1|]. split; [exact H2|]. split; [|exact H3].
  change [Emoji; Hanzi; Bold; Regular; Small] with config_order.
  eapply Forall2_weaken; [|exact H4]. intros gs w [R _]. exact R.
Qed.
Print Assumptions C58_write_committed.

Theorem C58_latin_files : forall printable outside arg0, printable 10 = false ->
  (forall cl r, In cl (latin_index ++ map snd latin_aliases) -> cl <> [0xAD] -> cl <> [0xA0] -> In r cl -> printable r = true) ->
  let r := go_main printable committed_files (committed_images outside) [arg0; chars "--write"] in
  exists emoji hanzi, r_writes r =
    [(chars "../src/fonts/emoji.rs", emoji); (chars "../src/fonts/hanzi.rs", hanzi);
     (chars "../src/fonts/bold.rs", text_of TextBold.bold_rs);
     (chars "../src/fonts/regular.rs", text_of TextRegular.regular_rs);
     (chars "../src/fonts/small.rs", text_of TextSmall.small_rs)].
Proof. exact latin_files_written. Qed.
Print Assumptions C58_latin_files.

(** Characters of the Latin index are asked about *)
Example C58_case : In [0xE9] (latin_index ++ map snd latin_aliases) /\ In [0x65; 0x301] (latin_index ++ map snd latin_aliases)
  /\ In [0xAD] (latin_index ++ map snd latin_aliases).
Proof. split; [|split]; (apply inb_in; vm_compute; reflexivity). Qed.

(** C59: nothing is written unless the only argument is --write *)
Theorem C59_needs_confirmation : forall printable fl im args,
  (forall a, args <> [a; chars "--write"]) -> r_writes (go_main printable fl im args) = [].
Proof. intros printable fl im args H. rewrite (unconfirmed printable fl im args H). apply usage_writes. Qed.
Print Assumptions C59_needs_confirmation.

(** C59: without it the tool prints a line for each file it would write *)
Theorem C59_usage_lists : forall printable fl im args sets jobs,
  (forall a, args <> [a; chars "--write"]) ->
  new_config fl (chars "config.json") = Ret sets -> fonts fl sets = Ret jobs ->
  r_ok (go_main printable fl im args) = true /\
  exists before after, r_prints (go_main printable fl im args)
    = before ++ flat_map (fun g => [10; 32; 32] ++ cg_out g) sets ++ [10] ++ after.
Proof.
  intros printable fl im args sets jobs H E1 E2. rewrite (unconfirmed printable fl im args H).
  destruct (usage_lists fl sets jobs E1 E2) as [-> Eo]. split; [reflexivity|].
  cbn [r_prints]. unfold usage_text.
  exists (nl ++ lit "This tool generates fonts in the form of rust source code." ++ nl
          ++ lit "To confirm that you want to write the files, use the " ++ confirm ++ lit " switch." ++ nl
          ++ nl ++ lit "Font files that will be generated:").
  eexists. rewrite <- !app_assoc. do 8 f_equal. f_equal.
  assert (F : flat_map (fun j => nl ++ lit "  " ++ fj_out j) jobs = flat_map (fun g => [10; 32; 32] ++ cg_out g) sets).
  { rewrite !flat_map_concat_map. f_equal.
    rewrite <- (map_map fj_out (fun o => nl ++ lit "  " ++ o)), Eo, map_map. reflexivity. }
  rewrite F. reflexivity.
Qed.
Print Assumptions C59_usage_lists.

(** C59: if the configuration, or an index, alias or notice file of any set, cannot be
    read, nothing is written or printed and the tool panics *)
Theorem C59_all_inputs_first : forall printable fl im args,
  (sets <- new_config fl (chars "config.json") ;; fonts fl sets) = Panic ->
  go_main printable fl im args = Run [] [] false.
Proof. exact run_unread. Qed.
Print Assumptions C59_all_inputs_first.

(** C59: otherwise the files of the sets are written in order; the first set that
    fails stops the tool, and the files before it stay written *)
Theorem C59_in_order : forall printable fl im a sets jobs,
  new_config fl (chars "config.json") = Ret sets -> fonts fl sets = Ret jobs ->
  let r := go_main printable fl im [a; chars "--write"] in
  exists done rest, jobs = done ++ rest /\
    Forall2 (fun j w => fst w = fj_out j /\ render_job printable im j = Ret (snd w)) done (r_writes r) /\
    r_prints r = flat_map (fun j => chars "Writing to " ++ fj_out j ++ [10]) done /\
    (r_ok r = true -> rest = []) /\
    (r_ok r = false -> exists j later, rest = j :: later /\ render_job printable im j = Panic).
Proof. exact run_spec. Qed.
Print Assumptions C59_in_order.

(** C59: every file written is the file of its set, and reads as the font generated
    from the set's own sheet, index and aliases *)
Theorem C59_every_file_reads : forall printable fl im a sets n w,
  printable 10 = false -> new_config fl (chars "config.json") = Ret sets ->
  nth_error (r_writes (go_main printable fl im [a; chars "--write"])) n = Some w ->
  exists g j img fnt, nth_error sets n = Some g /\ fst w = cg_out g /\ font_of fl g = Ret j /\
    im (cg_sprites g) = Some img /\ generate (fj_spec j) img (fj_csl j) (fj_aliases j) = Ret fnt /\
    ((0 <= cg_size g < 256)%Z -> cg_seed g < 2 ^ 32 -> name_ok (chars (string_of (cg_name g))) -> only_comments (fj_legal j) ->
     (forall cs cl, In cs (fj_csl j) -> string_from_hex_gc (cs_hex cs) = Ret cl -> N.of_nat (length cl) < 2 ^ 32) ->
     (forall al cl, In al (fj_aliases j) -> string_from_hex_gc (alias_hex al) = Ret cl -> N.of_nat (length cl) < 2 ^ 32) ->
     read_rust (chars (string_of (cg_name g))) (snd w) = Some (constants_of fnt)).
Proof. exact write_reads. Qed.
Print Assumptions C59_every_file_reads.

(** C59: a file written depends on nothing but its own set, the three files it names
    and its sheet *)
Theorem C59_sets_independent : forall printable fl im a fl' im' a' sets sets' n w w' g,
  new_config fl (chars "config.json") = Ret sets -> new_config fl' (chars "config.json") = Ret sets' ->
  nth_error sets n = Some g -> nth_error sets' n = Some g ->
  fl (cg_legal g) = fl' (cg_legal g) -> fl (cg_index g) = fl' (cg_index g) -> fl (cg_aliases g) = fl' (cg_aliases g) ->
  im (cg_sprites g) = im' (cg_sprites g) ->
  nth_error (r_writes (go_main printable fl im [a; chars "--write"])) n = Some w ->
  nth_error (r_writes (go_main printable fl' im' [a'; chars "--write"])) n = Some w' ->
  w = w'.
Proof. exact write_same. Qed.
Print Assumptions C59_sets_independent.

(** The committed configuration without a sheet for Hanzi: the emoji font alone is
    written; and without the switch, or with two, nothing *)
Example C59_case :
  let im name := if list_eq_dec N.eq_dec name (chars "src_data/hanzi_core2020_g.png") then None
                 else committed_images (fun _ _ => 0) name in
  new_config committed_files (chars "config.json") = Ret (map set_of [Emoji; Hanzi; Bold; Regular; Small]) /\
  r_ok (go_main (fun _ => false) committed_files im [[]; chars "--write"]) = false /\
  map fst (r_writes (go_main (fun _ => false) committed_files im [[]; chars "--write"])) = [chars "../src/fonts/emoji.rs"] /\
  r_writes (go_main (fun _ => false) committed_files im [[]]) = [] /\
  r_writes (go_main (fun _ => false) committed_files im [[]; chars "--write"; chars "--write"]) = [].
Proof.
  cbv zeta. split; [exact config_read|].
  assert (E : map fst (r_writes (go_main (fun _ => false) committed_files
      (fun name => if list_eq_dec N.eq_dec name (chars "src_data/hanzi_core2020_g.png") then None
                   else committed_images (fun _ _ => 0) name) [[]; chars "--write"])) = [chars "../src/fonts/emoji.rs"] /\
    r_ok (go_main (fun _ => false) committed_files
      (fun name => if list_eq_dec N.eq_dec name (chars "src_data/hanzi_core2020_g.png") then None
                   else committed_images (fun _ _ => 0) name) [[]; chars "--write"]) = false).
  { exact stops_at_hanzi. }
  split; [exact (proj2 E)|]. split; [exact (proj1 E)|]. split; apply C59_needs_confirmation; discriminate.
Qed.
