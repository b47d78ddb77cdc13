(** * C67: the comments of a font file name what stands beside them *)
From Coq Require Import ZArith String.
From Verif Require Import Prim Str FontDefs Codegen CodegenText Fonts SheetIndex Sheets Render Config SpecRust SpecCodegen SpecLabel.
From Verif Require Import TextInputs TextSmall Files RenderLex RenderFiles MainProofs PropsCodegen LabelProofs LabelFiles.
Local Open Scope N_scope.
Local Open Scope list_scope.
Local Notation length := List.length.

(** C67: the label of a cluster, with its escapes and numbers, reads as the cluster *)
Theorem C67_label : forall printable cl, cl <> [] -> Forall (fun c => c < 0x110000) cl ->
  read_label (label_for_cluster printable cl) = Some cl.
Proof. exact read_label_back. Qed.
Print Assumptions C67_label.

(** So no two clusters share a label, under any two ideas of what is printable *)
Theorem C67_label_injective : forall p q a b, a <> [] -> b <> [] ->
  Forall (fun c => c < 0x110000) a -> Forall (fun c => c < 0x110000) b ->
  label_for_cluster p a = label_for_cluster q b -> a = b.
Proof.
  intros p q a b Na Nb Ha Hb E. pose proof (read_label_back p a Na Ha) as R. rewrite E, (read_label_back q b Nb Hb) in R. congruence.
Qed.
Print Assumptions C67_label_injective.

(** C67: in a generated file, the comment above each glyph's words has the glyph's offset, its name
    in the index, and its cluster; the rows of the tables are, block by block, the hashes and then the
    offsets, each beside its cluster; and these are the glyphs and the aliases, an alias at the offset
    of a glyph. *)
Theorem C67_comments : forall printable, printable 10 = false ->
  forall f legal, one_line (chars (fs_name f)) = true -> rows legal = [] -> records legal = [] ->
  forall img csl al text, generate_text printable f legal img csl al = Ret text ->
  exists pl cls aliases offs blocks, pattern_list img f csl = Ret pl /\
    Forall2 (fun cs cl => string_from_hex_gc (cs_hex cs) = Ret cl) csl cls /\
    Forall2 (fun a cl => string_from_hex_gc (alias_hex a) = Ret cl) al aliases /\ length offs = length aliases /\
    Forall (fun o => In o (offsets_from 0 (map bp_words pl))) offs /\
    records text = map (fun h => (fst h, fst (snd h), snd (snd h)))
      (combine (offsets_from 0 (map bp_words pl)) (combine (map cs_hex csl) cls)) /\
    rows text = flat_map (fun b => map (fun co => (go_murmur3 (fst co) (fs_seed f), fst co)) b ++ map (fun co => (snd co, fst co)) b) blocks /\
    (forall co, In co (concat blocks) <-> In co (combine cls (offsets_from 0 (map bp_words pl)) ++ combine aliases offs)).
Proof. intros printable Hp f legal Hn. rewrite chars_lit in Hn. exact (generated_comments printable Hp f legal Hn). Qed.
Print Assumptions C67_comments.

(** The committed notices have nothing that could be taken for a row or a record *)
Theorem C67_notices : forall gs, rows (legal_of gs) = [] /\ records (legal_of gs) = [].
Proof.
  assert (H : forall gs, match rows (legal_of gs), records (legal_of gs) with [], [] => true | _, _ => false end = true)
    by (intros gs; destruct gs; vm_cast_no_check (eq_refl true)).
  intros gs. specialize (H gs). destruct (rows (legal_of gs)); [|discriminate H]. destruct (records (legal_of gs)); [split; reflexivity|discriminate H].
Qed.
Print Assumptions C67_notices.

(** Escapes: a zero-width joiner, a soft hyphen, a tag, a quote, a backslash, a control *)
Definition ascii_only (c : N) : bool := (32 <=? c) && (c <? 127).
Example C67_case_labels :
  map (label_for_cluster ascii_only) [[0x1F468; 0x200D]; [0xAD]; [0xE0067]; [34]; [92]; [1]; [9]; [65]]
  = map (fun s => chars s) ["""\U0001f468\u200d"" 1F468-200D"; """\u00AD"" Soft Hyphen"; """\U000e0067"""; """\"""""; """\\"""; """\x01"""; """\t"""; """A"""]%string
  /\ map read_label (map (label_for_cluster ascii_only) [[0x1F468; 0x200D]; [0xAD]; [0xE0067]; [34]; [92]; [1]; [9]; [65]])
  = [Some [0x1F468; 0x200D]; Some [0xAD]; Some [0xE0067]; Some [34]; Some [92]; Some [1]; Some [9]; Some [65]].
Proof. vm_compute. split; reflexivity. Qed.
(** The committed small.rs, and the small font of C57 *)
Example C67_case_small :
  firstn 3 (records (text_of small_rs)) = [(0, chars "20", [0x20]); (2, chars "21", [0x21]); (4, chars "22", [0x22])]
  /\ length (rows (text_of small_rs)) = 518%nat /\ nth_error (rows (text_of small_rs)) 0 = Some (0x323CD4F, [101; 776]).
Proof. vm_compute. repeat split. Qed.
Example C67_case_font :
  match generate_text (fun c => negb (c =? 10)) case_spec (chars "// Notice") case_img case_list case_aliases with
  | Ret text => (rows text, records text)
  | Panic => ([], [])
  end = ([(1271738775, [65]); (1380732798, [66]); (4255961474, [67; 768]); (0, [65]); (2, [66]); (2, [67; 768])],
         [(0, chars "41", [65]); (2, chars "42", [66])]).
Proof. vm_compute. reflexivity. Qed.
