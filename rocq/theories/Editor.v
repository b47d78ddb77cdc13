(** * Model of the script that writes the generator's configuration, index and alias
    files: codegen/config_editor.rb

    A Ruby string is the list of its characters; the tables are literals of the
    script, so their strings hold Unicode scalars only, and no hash has a key twice.
    The script has no arguments, so that gets reads the standard input.  Not modelled:
    what goes to the standard error, and errors of File.open, write and puts. *)
From Coq Require Import ZArith String.
From Verif Require Import Prim Str FontDefs Codegen CodegenText Render Config.
Local Open Scope N_scope.
Local Open Scope list_scope.
Local Notation length := List.length.

(** ** JSON.generate and JSON.pretty_generate (Ruby standard library) *)
Inductive rval :=
| RInt (z : Z)
| RStr (s : list N)
| RArr (l : list rval)
| RHash (l : list (list N * rval)).

(** The options: indent, space, object_nl, array_nl *)
Record json_state := JsonState { js_indent : list N; js_space : list N; js_object_nl : list N; js_array_nl : list N }.

(** config_editor.rb:354, 372; 376 *)
Definition table_state : json_state := JsonState [] [32] [32] [10].
Definition pretty_state : json_state := JsonState [32; 32] [32] [10] [10].

(** A character of a string *)
Definition json_escape (c : N) : list N :=
  if c =? 34 then [92; 34]
  else if c =? 92 then [92; 92]
  else if c =? 8 then [92; 98]
  else if c =? 9 then [92; 116]
  else if c =? 10 then [92; 110]
  else if c =? 12 then [92; 102]
  else if c =? 13 then [92; 114]
  else if c <? 32 then 92 :: 117 :: zero_pad 4 (map lower_digit (digits 16 c))
  else utf8_rune c.
Definition json_text (s : list N) : list N := 34 :: flat_map json_escape s ++ [34].

Definition indent_to (f : json_state) (depth : nat) : list N := concat (repeat (js_indent f) depth).

(** The elements between brackets: a line break, the elements with commas and line
    breaks between them, a line break *)
Definition bracketed (f : json_state) (depth : nat) (nl : list N) (op cl : N) (items : list (list N)) : list N :=
  match items with
  | [] => [op; cl]
  | _ => op :: nl ++ join (44 :: nl) (map (fun t => indent_to f (S depth) ++ t) items)
         ++ nl ++ indent_to f depth ++ [cl]
  end.

Fixpoint generate (f : json_state) (depth : nat) (v : rval) : list N :=
  match v with
  | RInt z => fmt_int z
  | RStr s => json_text s
  | RArr l => bracketed f depth (js_array_nl f) 91 93 (map (generate f (S depth)) l)
  | RHash l =>
      bracketed f depth (js_object_nl f) 123 125
        (map (fun kv => json_text (fst kv) ++ 58 :: js_space f ++ generate f (S depth) (snd kv)) l)
  end.

(** ** The tables, config_editor.rb:18-342 *)

(** An entry of an index, e.g. config_editor.rb:103 *)
Record index_row := IndexRow { ir_hex : list N; ir_row : Z; ir_col : Z; ir_label : list N }.
Definition row_hash (r : index_row) : rval :=
  RHash [(lit "hex", RStr (ir_hex r)); (lit "row", RInt (ir_row r)); (lit "col", RInt (ir_col r));
         (lit "label", RStr (ir_label r))].

(** config_editor.rb:97-101, 322-326 *)
Definition index_hash (comment : list (list N)) (rows : list index_row) : rval :=
  RHash [(lit "comment", RArr (map RStr comment)); (lit "map", RArr (map row_hash rows))].

(** config_editor.rb:28-38; the strings of the record are lists of characters *)
Definition set_hash (g : config_set) : rval :=
  RHash [(lit "name", RStr (cg_name g)); (lit "m3Seed", RInt (Z.of_N (cg_seed g)));
         (lit "sprites", RStr (cg_sprites g)); (lit "size", RInt (cg_size g)); (lit "cols", RInt (cg_cols g));
         (lit "gutter", RInt (cg_gutter g)); (lit "border", RInt (cg_border g));
         (lit "legal", RStr (cg_legal g)); (lit "index", RStr (cg_index g));
         (lit "indexType", RStr (cg_index_type g)); (lit "aliases", RStr (cg_aliases g));
         (lit "glyphTrim", RStr (cg_trim g)); (lit "rustout", RStr (cg_out g))].

(** config_editor.rb:23-27 *)
Definition config_hash (comment : list (list N)) (sets : list config_set) : rval :=
  RHash [(lit "comment", RArr (map RStr comment)); (lit "glyphSets", RArr (map set_hash sets))].

(** All tables of the script *)
Record tables := Tables {
  tb_config_comment : list (list N); tb_sets : list config_set;
  tb_latin_comment : list (list N); tb_latin : list index_row;
  tb_icon_comment : list (list N); tb_icons : list index_row
}.

(** ** The alias file, config_editor.rb:356-369 *)

(** split("-"): without the empty strings at the end *)
Fixpoint drop_empty (l : list (list N)) : list (list N) :=
  match l with [] :: rest => drop_empty rest | _ => l end.
Definition ruby_split (s : list N) : list (list N) := rev (drop_empty (rev (split_on 45 s))).

(** to_i(16): the digits at the start; white space, signs, 0x and underscores, which
    Ruby also takes, are not modelled *)
Fixpoint ruby_hex (acc : N) (s : list N) : N :=
  match s with
  | [] => acc
  | c :: t => match hex_digit c with Some d => ruby_hex (acc * 16 + d) t | None => acc end
  end.

(** config_editor.rb:361; chr raises an error for what is not a character *)
Definition ruby_cluster (hex : list N) : res (list N) :=
  map_res (fun s => let n := ruby_hex 0 s in if is_char n then Ret n else Panic) (ruby_split hex).

(** config_editor.rb:364 *)
Definition ruby_hex_name (s : list N) : list N := join [45] (map fmt_X s).

(** UTF-8 *)
Definition encode (s : list N) : list N := flat_map utf8_rune s.

(** config_editor.rb:367 *)
Definition alias_text (hexC : list N) (cC : list N) (hexD : list N) (cD : list N) : list N :=
  encode hexC ++ lit " " ++ hexD ++ lit "   # nfc: [" ++ encode hexC ++ lit ", " ++ encode cC
  ++ lit "],  nfd: [" ++ hexD ++ lit ", " ++ encode cD ++ lit "]" ++ nl.

(** config_editor.rb:359-368: what is written, and whether there was no error; nfd is
    unicode_normalize(:nfd), a table of the Ruby standard library *)
Fixpoint write_aliases (nfd : list N -> list N) (hexes : list (list N)) : list N * bool :=
  match hexes with
  | [] => ([], true)
  | hexC :: rest =>
      match ruby_cluster hexC with
      | Panic => ([], false)
      | Ret cC =>
          let cD := nfd cC in
          let '(text, ok) := write_aliases nfd rest in
          if list_eq_dec N.eq_dec cC cD then (text, ok)
          else (alias_text hexC cC (ruby_hex_name cD) cD ++ text, ok)
      end
  end.

(** ** The script *)

(** config_editor.rb:19-21 *)
Definition latin_index_outfile : list N := lit "src_data/latin_index.json".
Definition latin_alias_outfile : list N := lit "src_data/latin_aliases.txt".
Definition icon_index_outfile : list N := lit "src_data/icon_index.json".

(** gets: the first line of the input with its line break, if there is any input *)
Fixpoint first_line (s : list N) : list N :=
  match s with
  | [] => []
  | c :: t => if c =? 10 then [10] else c :: first_line t
  end.

(** chomp *)
Definition chomp (s : list N) : list N :=
  match rev s with
  | 10 :: 13 :: t => rev t
  | 10 :: t => rev t
  | 13 :: t => rev t
  | _ => s
  end.

(** config_editor.rb:344-349 *)
Definition question : list N :=
  lit "Preparing to overwrite files..." ++ nl
  ++ lit "  " ++ config_name ++ nl ++ lit "  " ++ latin_index_outfile ++ nl
  ++ lit "  " ++ icon_index_outfile ++ nl ++ lit "  " ++ latin_alias_outfile ++ nl
  ++ lit "Do you want to proceed? [y/N]: ".
Definition writing (name : list N) : list N := lit "writing " ++ name ++ nl.

(** config_editor.rb:344-377; gets.chomp at the end of the input is an error, and
    abort ends the script as one *)
Definition editor (nfd : list N -> list N) (t : tables) (input : list N) : run :=
  match input with
  | [] => Run [] question false
  | _ =>
      let answer := chomp (first_line input) in
      if if list_eq_dec N.eq_dec answer (lit "y") then true
         else if list_eq_dec N.eq_dec answer (lit "Y") then true else false
      then
        let index := (latin_index_outfile, generate table_state 0 (index_hash (tb_latin_comment t) (tb_latin t))) in
        let '(text, ok) := write_aliases nfd (map ir_hex (tb_latin t)) in
        let aliases := (latin_alias_outfile, text) in
        let said := question ++ writing latin_index_outfile ++ writing latin_alias_outfile in
        if ok then
          Run [index; aliases;
               (icon_index_outfile, generate table_state 0 (index_hash (tb_icon_comment t) (tb_icons t)));
               (config_name, generate pretty_state 0 (config_hash (tb_config_comment t) (tb_sets t)) ++ nl)]
              (said ++ writing icon_index_outfile ++ writing config_name) true
        else Run [index; aliases] said false
      else Run [] question false
  end.
