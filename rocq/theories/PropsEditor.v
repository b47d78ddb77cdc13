(** * Properties of the script that writes the generator's files (C61) *)
From Coq Require Import ZArith String Lia.
From Verif Require Import Prim Str FontDefs Codegen CodegenText Render Config Editor EditorTables SpecEditor EditorJson EditorProofs EditorCheck.
From Verif Require Import Sheets IndexText IndexLatin TextInputs Files.
Local Open Scope N_scope.
Local Open Scope list_scope.

(** ** C61: the script writes what the generator reads *)

(** With the answer yes and Unicode's decompositions, the script writes the committed
    files, byte for byte, and nothing else *)
Theorem C61_writes_committed_files nfd input :
  (forall c, In c latin_index -> nfd c = decomposition c) -> says_yes input ->
  r_writes (editor nfd script_tables input) =
    [(lit "src_data/latin_index.json", text_of latin_index_json);
     (lit "src_data/latin_aliases.txt", text_of latin_aliases_txt);
     (lit "src_data/icon_index.json", text_of icon_index_json);
     (lit "config.json", text_of config_json)]
  /\ r_ok (editor nfd script_tables input) = true.
Proof. exact (script_writes nfd input). Qed.
Print Assumptions C61_writes_committed_files.

(** Whatever the tables: without the answer yes nothing is written *)
Theorem C61_needs_yes nfd t input : ~ says_yes input ->
  r_writes (editor nfd t input) = [] /\ r_ok (editor nfd t input) = false.
Proof. intros H. rewrite (editor_no nfd t input H). split; reflexivity. Qed.
Print Assumptions C61_needs_yes.

(** For all values and all options that write white space only: what the JSON library
    of Ruby writes, the one of Go reads as the same value *)
Theorem C61_json_read_back f v before after : state_ok f -> strings_ok v -> json_blank before -> json_blank after ->
  parse_json (before ++ generate f 0 v ++ after) = Some (json_of v).
Proof. exact (json_round_trip f v before after). Qed.
Print Assumptions C61_json_read_back.

(** For all tables: the generator gets from the files the sets, the rows and, for each
    cluster whose decomposition is another one, the pair of the two *)
Theorem C61_generator_reads_tables nfd t cls input fl : tables_ok t ->
  Forall2 cluster_name (map ir_hex (tb_latin t)) cls -> Forall (cluster_ok nfd) cls -> says_yes input ->
  holds_files fl (r_writes (editor nfd t input)) ->
  r_ok (editor nfd t input) = true /\
  new_config fl (lit "config.json") = Ret (map set_bytes (tb_sets t)) /\
  (forall g, cg_index g = lit "src_data/latin_index.json" -> read_json_cluster_map fl g = Ret (map row_bytes (tb_latin t))) /\
  (forall g, cg_index g = lit "src_data/icon_index.json" -> read_json_cluster_map fl g = Ret (map row_bytes (tb_icons t))) /\
  (forall g, cg_aliases g = lit "src_data/latin_aliases.txt" -> exists al,
     grapheme_cluster_aliases fl g = Ret al /\
     map alias_clusters al = map (fun c => (Ret c, Ret (nfd c))) (filter (differs nfd) cls)).
Proof. exact (run_reads nfd t cls input fl). Qed.
Print Assumptions C61_generator_reads_tables.

(** A cluster with a newline in it breaks the alias file: the comment goes on in the
    next line, and the generator may take it for an alias *)
Definition newline_cluster : list N := [10; 0x31; 0x20; 0x32; 0xC0].
Definition newline_nfd (c : list N) : list N :=
  if list_eq_dec N.eq_dec c newline_cluster then [10; 0x31; 0x20; 0x32; 0x41; 0x300] else c.
Definition newline_tables : tables := Tables [] [] [] [IndexRow (lit "A-31-20-32-C0") 0 0 (lit "?")] [] [].
Theorem C61_newline_refuted :
  ~ (forall nfd t cls input fl g, tables_ok t ->
       Forall2 cluster_name (map ir_hex (tb_latin t)) cls ->
       Forall (fun c => scalars c /\ scalars (nfd c) /\ nfd c <> []) cls -> says_yes input ->
       holds_files fl (r_writes (editor nfd t input)) ->
       cg_aliases g = lit "src_data/latin_aliases.txt" -> exists al,
         grapheme_cluster_aliases fl g = Ret al /\
         map alias_clusters al = map (fun c => (Ret c, Ret (nfd c))) (filter (differs nfd) cls)).
Proof.
  intros H.
  set (g := ConfigSet [] 0 [] 0 0 0 0 [] [] [] (lit "src_data/latin_aliases.txt") [] []).
  set (text := fst (write_aliases newline_nfd [lit "A-31-20-32-C0"])).
  set (fl := fun name => match find (fun p => if list_eq_dec N.eq_dec (fst p) name then true else false)
                          (r_writes (editor newline_nfd newline_tables (lit "y"))) with
                         | Some p => Some (snd p) | None => None end).
  destruct (H newline_nfd newline_tables [newline_cluster] (lit "y") fl g) as (al & E1 & E2).
  - split; [repeat split; constructor|]. split; [constructor|]. split; [|constructor].
    constructor; [|constructor]. apply rowb_ok. reflexivity.
  - constructor; [|constructor]. change (lit "A-31-20-32-C0") with (ruby_hex_name newline_cluster). apply ruby_name. discriminate.
  - constructor; [|constructor]. repeat split; try (apply scalarsb_ok; reflexivity). discriminate.
  - exists 121. split; [left; reflexivity|left; reflexivity].
  - intros name text0 I. vm_compute in I.
    repeat (destruct I as [I|I]; [injection I as <- <-; vm_compute; reflexivity|]). destruct I.
  - reflexivity.
  - vm_compute in E1. injection E1 as <-. vm_compute in E2. discriminate E2.
Qed.
Print Assumptions C61_newline_refuted.

(** Not vacuous: the committed tables are such tables, and all their rows and sets are
    read; e.g. U+00C5 is in the index and becomes an alias pair with U+0041 U+030A *)
Example C61_case :
  tables_ok script_tables /\ Forall2 cluster_name (map ir_hex (tb_latin script_tables)) latin_index /\
  Forall (cluster_ok decomposition) latin_index /\ says_yes (lit "Y" ++ [13; 10]) /\ ~ says_yes (lit "yes") /\
  In [0xC5] latin_index /\ decomposition [0xC5] = [0x41; 0x30A] /\
  N.of_nat (List.length (filter (differs decomposition) latin_index)) = 53 /\
  In (row_bytes (IndexRow (lit "C5") 1 8 [0xC5])) (map row_bytes (tb_latin script_tables)).
Proof.
  split; [exact script_ok|]. split; [exact script_names|]. split; [exact script_clusters|].
  split. { exists 89. split; [right; reflexivity|]. right. right. right. exists []. reflexivity. }
  split. { intros (c & _ & [E|[E|[[t E]|[t E]]]]); discriminate E. }
  split. { apply (nth_error_In _ 132). vm_compute. reflexivity. }
  split; [vm_compute; reflexivity|]. split; [vm_compute; reflexivity|]. apply (nth_error_In _ 132). vm_compute. reflexivity.
Qed.

(** A value with characters that JSON escapes *)
Example C61_case_json :
  parse_json (generate table_state 0 (RHash [(lit "a", RArr [RStr [34; 92; 1; 0x1F600]; RInt (-12); RHash []])]))
  = Some (JObj [(lit "a", JArr [JStr [34; 92; 1; 0xF0; 0x9F; 0x98; 0x80]; JNum (lit "-12"); JObj []])]).
Proof. vm_compute. reflexivity. Qed.
