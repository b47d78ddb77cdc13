(** * Properties C53 and C54: the generator's text files *)
From Coq Require Import ZArith.
From Verif Require Import Prim Str FontDefs Codegen CodegenText SpecLines LinesProofs.

(** C53: the glyph of the n-th name is n-th on the sheet, in row-major order, for
    every text; without columns the row never ends *)
Theorem C53_index_positions : forall columns text i cs,
  (0 < columns)%Z -> nth_error (emoji_map columns text) i = Some cs ->
  (cs_row cs, cs_col cs) = row_major columns i.
Proof. exact map_positions. Qed.
Print Assumptions C53_index_positions.

Theorem C53_index_without_columns : forall columns text i cs,
  (columns <= 0)%Z -> nth_error (emoji_map columns text) i = Some cs ->
  cs_row cs = 0%Z /\ cs_col cs = Z.of_nat i.
Proof. exact map_positions_flat. Qed.
Print Assumptions C53_index_without_columns.

(** the names are those of the lines, in order; comments, white space and lines
    without a name change nothing *)
Theorem C53_index_names : forall columns names lines,
  lines <> [] -> index_lines names lines ->
  map cs_hex (emoji_map columns (file lines)) = names.
Proof. exact index_read. Qed.
Print Assumptions C53_index_names.

(** "a1", TAB, "#x"; an empty line; NBSP, "b" *)
Example C53_case_lines :
  index_lines [[97; 49]; [98]] [[97; 49; 9; 35; 120]; []; [0xC2; 0xA0; 98]].
Proof.
  assert (N1 : name [97; 49]) by (split; [discriminate|repeat constructor; unfold name_byte; lia]).
  assert (N2 : name [98]) by (split; [discriminate|repeat constructor; unfold name_byte; lia]).
  assert (B0 : blank []) by (exists []; split; [constructor|reflexivity]).
  assert (B1 : blank [9]) by (exists [9]; split; [repeat constructor; unfold white; simpl; tauto|reflexivity]).
  assert (B2 : blank [0xC2; 0xA0]) by (exists [0xA0]; split; [repeat constructor; unfold white; simpl; tauto|reflexivity]).
  apply il_name; [exact N1| |apply il_skip; [|apply il_name; [exact N2| |constructor]]].
  - exists [], [9], [35; 120]. repeat split; try assumption.
    right. exists [120]. split; [reflexivity|]. intros [I|[]]; discriminate.
  - exists [], [], []. repeat split; try assumption. left; reflexivity.
  - exists [0xC2; 0xA0], [], []. repeat split; try assumption. left; reflexivity.
Qed.
Example C53_case :
  emoji_map 2 (file [[97; 49; 9; 35; 120]; []; [0xC2; 0xA0; 98]; [99]]) =
    [CharSpec [97; 49] 0 0; CharSpec [98] 0 1; CharSpec [99] 1 0] /\
  map cs_row (emoji_map 0 (file [[97]; [98]; [99]])) = [0; 0; 0]%Z.
Proof. split; vm_compute; reflexivity. Qed.

(** C54: two names with one space between them are an alias *)
Theorem C54_alias_names : forall pairs lines,
  lines <> [] -> alias_lines pairs lines ->
  emoji_aliases_of (file lines) = map (fun p => GCAlias (fst p) (snd p)) pairs.
Proof. exact aliases_read. Qed.
Print Assumptions C54_alias_names.

(** but with other white space between the names (here: two spaces) the line is
    dropped without a message *)
Theorem C54_alias_any_space_refuted :
  ~ forall canon alias sep line,
      name canon -> name alias -> blank sep -> sep <> [] ->
      line_with (canon ++ sep ++ alias) line -> emoji_aliases_of line = [GCAlias canon alias].
Proof.
  intros H.
  assert (N1 : name [97]) by (split; [discriminate|repeat constructor; unfold name_byte; lia]).
  assert (B0 : blank []) by (exists []; split; [constructor|reflexivity]).
  assert (B1 : blank [32; 32]) by (exists [32; 32]; split; [repeat constructor; unfold white; simpl; tauto|reflexivity]).
  specialize (H [97] [97] [32; 32] [97; 32; 32; 97] N1 N1 B1 ltac:(discriminate)).
  assert (L : line_with ([97] ++ [32; 32] ++ [97]) [97; 32; 32; 97]).
  { exists [], [], []. repeat split; try assumption. left; reflexivity. }
  specialize (H L). vm_compute in H. discriminate.
Qed.
Print Assumptions C54_alias_any_space_refuted.

(** "a b"; "# c"; "a b c"; "a  b"; "a", TAB, "b" *)
Example C54_case :
  emoji_aliases_of (file [[97; 32; 98]; [35; 32; 99]; [97; 32; 98; 32; 99]; [97; 32; 32; 98]; [97; 9; 98]]) =
    [GCAlias [97] [98]].
Proof. vm_compute. reflexivity. Qed.
