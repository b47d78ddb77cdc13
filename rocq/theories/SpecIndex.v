(** * Specification: what the fonts should contain

    The lists the fonts were generated from, and where the n-th glyph record of a
    font starts. *)
From Verif Require Import Prim Str FontDefs SpecPaint.
From Verif Require Import IndexLatin IndexEmoji IndexHanzi.

Definition font_index (gs : glyphset) : list str :=
  match gs with
  | Emoji => emoji_index
  | Hanzi => hanzi_index
  | Small | Regular | Bold => latin_index
  end.

(** (canonical cluster, alias) *)
Definition font_aliases (gs : glyphset) : list (str * str) :=
  match gs with
  | Emoji => emoji_aliases
  | Hanzi => []
  | Small | Regular | Bold => latin_aliases
  end.

(** The clusters a font should know *)
Definition listed (gs : glyphset) (cluster : str) : Prop :=
  In cluster (font_index gs) \/ In cluster (map snd (font_aliases gs)).

(** Words after the header of a glyph record *)
Definition pixel_words (header : N) : N :=
  ((header / 65536) mod 256 * ((header / 256) mod 256) + 31) / 32.

(** Offsets of the records that follow each other in [data]; [skip] words of the
    current record are still to come, the first word has offset [off]. *)
Fixpoint record_starts (skip : nat) (data : list N) (off : N) : list N :=
  match data with
  | [] => []
  | w :: rest =>
      match skip with
      | S k => record_starts k rest (off + 1)
      | O => off :: record_starts (N.to_nat (pixel_words w)) rest (off + 1)
      end
  end.

Definition starts (f : font) : list N := record_starts 0 (concat (f_data f)) 0.

(** Unicode scalar values: what a Rust char can hold *)
Definition scalar (c : N) : Prop := c < 0xD800 \/ 0xE000 <= c < 0x110000.

(** ** Latin text *)
Definition printable (c : N) : Prop := 32 <= c <= 126.

(** Printable ASCII and newlines *)
Definition ascii_text (s : str) : Prop := Forall (fun c => c = 10 \/ printable c) s.

(** The two texts are the same sequence of newlines and characters of the Latin
    index, but each letter with an alias (an accented letter) may be written
    composed in one and decomposed in the other. *)
Inductive same_letters : str -> str -> Prop :=
| sl_nil : same_letters [] []
| sl_newline t t' : same_letters t t' -> same_letters (10 :: t) (10 :: t')
| sl_char c t t' : In [c] latin_index -> same_letters t t' -> same_letters (c :: t) (c :: t')
| sl_forms canon alias u v t t' :
    In (canon, alias) latin_aliases -> u = canon \/ u = alias -> v = canon \/ v = alias ->
    same_letters t t' -> same_letters (u ++ t) (v ++ t').
