(** * The files the generator reads and, of those it writes, the three smaller ones,
    as they are committed *)
From Coq Require Import ZArith String.
From Verif Require Import Prim Str FontDefs SpecPaint Codegen CodegenText Render Config.
From Verif Require Import SheetCells Sheets IndexText TextInputs TextBold TextRegular TextSmall.
Local Open Scope N_scope.
Local Open Scope list_scope.

(** Look up a name *)
Fixpoint lookup {A} (table : list (list N * A)) (name : list N) : option A :=
  match table with
  | [] => None
  | (n, a) :: t => if list_eq_dec N.eq_dec n name then Some a else lookup t name
  end.

(** codegen/config.json and codegen/src_data *)
Definition committed_files : files := lookup
  [ (lit "config.json", text_of config_json);
    (lit "src_data/twemoji_legal.txt", text_of twemoji_legal_txt);
    (lit "src_data/emoji_13_0_index.txt", text_of emoji_index_txt);
    (lit "src_data/emoji_13_0_aliases.txt", text_of emoji_aliases_txt);
    (lit "src_data/noto_sans_sc_legal.txt", text_of noto_sans_sc_legal_txt);
    (lit "src_data/hanzi_core2020_g_index.txt", text_of hanzi_index_txt);
    (lit "src_data/chicago_legal.txt", text_of chicago_legal_txt);
    (lit "src_data/geneva_legal.txt", text_of geneva_legal_txt);
    (lit "src_data/latin_index.json", text_of latin_index_json);
    (lit "src_data/latin_aliases.txt", text_of latin_aliases_txt) ].

(** The images; [outside] is what they say about pixels outside of them *)
Definition sheet_of (outside : Z -> Z -> N) (gs : glyphset) : image :=
  sheet_image (sheet_width gs) (sheet_rows gs) outside.
Definition committed_images (outside : Z -> Z -> N) : images := lookup
  [ (lit "src_data/emoji_13_0.png", sheet_of outside Emoji);
    (lit "src_data/hanzi_core2020_g.png", sheet_of outside Hanzi);
    (lit "src_data/bold.png", sheet_of outside Bold);
    (lit "src_data/regular.png", sheet_of outside Regular);
    (lit "src_data/small.png", sheet_of outside Small) ].

(** src/fonts/bold.rs, regular.rs and small.rs *)
Definition latin_file (gs : glyphset) : option (list N) :=
  match gs with
  | Bold => Some (text_of bold_rs) | Regular => Some (text_of regular_rs) | Small => Some (text_of small_rs)
  | Emoji | Hanzi => None
  end.
