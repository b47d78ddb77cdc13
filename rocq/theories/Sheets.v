(** * The generator's input files and its configuration

    The pixels of the sprite sheets and the text of the index and alias files are in
    Sheet*.v and IndexText.v. *)
From Coq Require Import ZArith String Ascii.
From Verif Require Import Prim Str FontDefs SpecPaint Codegen CodegenText.
From Verif Require Import SheetSmall SheetRegular SheetBold SheetEmoji SheetHanzi IndexText.
Local Open Scope N_scope.
Local Open Scope list_scope.

(** The bytes of a text *)
Fixpoint bytes (s : string) (rest : list N) : list N :=
  match s with
  | EmptyString => rest
  | String a s' => N_of_ascii a :: bytes s' rest
  end.
Definition text_of (parts : list string) : list N := fold_right bytes [] parts.

(** codegen/config.json: size, cols, gutter, border, glyphTrim and m3Seed *)
Definition font_spec (gs : glyphset) : fontspec :=
  match gs with
  | Emoji => FontSpec "Emoji" 32 16 0 0 "proportional" 0
  | Hanzi => FontSpec "Hanzi" 32 20 2 2 "CJK" 0
  | Bold => FontSpec "Bold" 30 16 2 2 "proportional" 0
  | Regular => FontSpec "Regular" 30 16 2 2 "proportional" 0
  | Small => FontSpec "Small" 24 16 2 2 "proportional" 0
  end.

(** codegen/config.json: sprites *)
Definition sheet_width (gs : glyphset) : N :=
  match gs with
  | Emoji => emoji_width | Hanzi => hanzi_width
  | Bold => bold_width | Regular => regular_width | Small => small_width
  end.
Definition sheet_rows (gs : glyphset) : list N :=
  match gs with
  | Emoji => emoji_rows | Hanzi => hanzi_rows
  | Bold => bold_rows | Regular => regular_rows | Small => small_rows
  end.

(** codegen/config.json: index and indexType; config.go:63-88.  The JSON file of the
    Latin fonts is not parsed in the model, its entries are in [latin_map]. *)
Definition font_charspecs (gs : glyphset) : list charspec :=
  match gs with
  | Emoji => emoji_map 16 (text_of emoji_index_txt)
  | Hanzi => emoji_map 20 (text_of hanzi_index_txt)
  | Bold | Regular | Small => map (fun '(hex, row, col) => CharSpec (bytes hex []) row col) latin_map
  end.

(** codegen/config.json: aliases *)
Definition font_gcaliases (gs : glyphset) : list gcalias :=
  match gs with
  | Emoji => emoji_aliases_of (text_of emoji_aliases_txt)
  | Hanzi => []
  | Bold | Regular | Small => emoji_aliases_of (text_of latin_aliases_txt)
  end.
