(** * Model of the text the generator writes: codegen/lib/templates.go,
    blockindex.go:36-56, 78-100, blitpattern.go:64-95, glyphset.go:18-32,
    main.go:30-45

    A Go string is the list of its bytes.  The actions of the template are written out by hand, with the
    white space that [{{-] and [-}}] remove already removed. *)
From Coq Require Import ZArith String Ascii.
From Verif Require Import Prim Str FontDefs Codegen.
Local Open Scope N_scope.
Local Open Scope list_scope.
Local Notation length := List.length.

(** An ASCII literal *)
Fixpoint lit (s : string) : str :=
  match s with
  | EmptyString => []
  | String a s' => N_of_ascii a :: lit s'
  end.

Definition nl : str := [10].

(** ** fmt and strconv (Go standard library) *)

(** Digits of n, most significant first; [fuel] bounds their number *)
Fixpoint digits_loop (fuel : nat) (base n : N) (acc : list N) : list N :=
  match fuel with
  | O => acc
  | S fuel' =>
      let acc := n mod base :: acc in
      if n / base =? 0 then acc else digits_loop fuel' base (n / base) acc
  end.
Definition digits (base n : N) : list N := digits_loop (S (N.to_nat (N.size n))) base n [].

Definition upper_digit (d : N) : N := if d <? 10 then 48 + d else 55 + d.
Definition lower_digit (d : N) : N := if d <? 10 then 48 + d else 87 + d.

(** %d of an unsigned number, and of an int *)
Definition fmt_d (n : N) : str := map upper_digit (digits 10 n).
Definition fmt_int (z : Z) : str :=
  if (z <? 0)%Z then 45 :: fmt_d (Z.to_N (- z)) else fmt_d (Z.to_N z).

(** Fill up with zeros on the left, with spaces on the right *)
Definition zero_pad (n : nat) (s : str) : str := repeat 48 (n - length s) ++ s.
Definition space_pad (n : nat) (s : str) : str := s ++ repeat 32 (n - length s).

(** %X, %08X, %08x *)
Definition fmt_X (n : N) : str := map upper_digit (digits 16 n).
Definition fmt_08X (n : N) : str := zero_pad 8 (fmt_X n).
Definition fmt_08x (n : N) : str := zero_pad 8 (map lower_digit (digits 16 n)).

(** UTF-8 *)
Definition utf8_rune (c : N) : list N :=
  if c <? 0x80 then [c]
  else if c <? 0x800 then [0xC0 + c / 64; 0x80 + c mod 64]
  else if c <? 0x10000 then [0xE0 + c / 4096; 0x80 + c / 64 mod 64; 0x80 + c mod 64]
  else [0xF0 + c / 262144; 0x80 + c / 4096 mod 64; 0x80 + c / 64 mod 64; 0x80 + c mod 64].

(** One character inside strconv.Quote.  [printable] is strconv.IsPrint, a table of
    the Go standard library. *)
Definition quote_rune (printable : N -> bool) (r : N) : str :=
  if (r =? 34) || (r =? 92) then [92; r]
  else if printable r then utf8_rune r
  else if r =? 7 then lit "\a" else if r =? 8 then lit "\b" else if r =? 12 then lit "\f"
  else if r =? 10 then lit "\n" else if r =? 13 then lit "\r" else if r =? 9 then lit "\t"
  else if r =? 11 then lit "\v"
  else if r <? 32 then lit "\x" ++ zero_pad 2 (map lower_digit (digits 16 r))
  else if r <? 0x10000 then lit "\u" ++ zero_pad 4 (map lower_digit (digits 16 r))
  else lit "\U" ++ fmt_08x r.

(** %q *)
Definition fmt_q (printable : N -> bool) (s : str) : str :=
  34 :: flat_map (quote_rune printable) s ++ [34].

(** strings.Join *)
Fixpoint join (sep : str) (l : list str) : str :=
  match l with
  | [] => []
  | [s] => s
  | s :: rest => s ++ sep ++ join sep rest
  end.

(** ** codegen/lib/blockindex.go *)

(** blockindex.go:79-100: LabelForCluster *)
Definition label_for_cluster (printable : N -> bool) (c : str) : str :=
  match c with
  | [0xAD] => lit """\u00AD"" Soft Hyphen"
  | [0xA0] => lit """\u00A0"" No-Break Space"
  | _ =>
      let s := fmt_q printable c in
      if (1 <? length c)%nat then s ++ lit " " ++ join (lit "-") (map fmt_X c) else s
  end.

(** blockindex.go:37-45: RustCodeForClusterHashes *)
Definition code_for_hashes (printable : N -> bool) (b : block_index) : str :=
  join (nl ++ lit "    ")
    (map (fun e => lit "0x" ++ fmt_08X (e_hash e) ++ lit ",  // "
                   ++ label_for_cluster printable (e_cluster e)) b).

(** blockindex.go:48-56: RustCodeForOffsets *)
Definition code_for_offsets (printable : N -> bool) (b : block_index) : str :=
  join (nl ++ lit "    ")
    (map (fun e => space_pad 5 (fmt_d (e_offset e) ++ lit ",") ++ lit " // "
                   ++ label_for_cluster printable (e_cluster e)) b).

(** ** codegen/lib/blitpattern.go *)

(** blitpattern.go:67-84: eight words to a line; [fuel] bounds the lines *)
Fixpoint word_lines (fuel : nat) (words : list N) : str :=
  match fuel with
  | O => []
  | S fuel' =>
      match words with
      | [] => []
      | _ =>
          join (lit ", ") (map (fun w => lit "0x" ++ fmt_08x w) (firstn 8 words)) ++ lit ","
          ++ match skipn 8 words with
             | [] => []
             | rest => nl ++ lit "    " ++ word_lines fuel' rest
             end
      end
  end.

(** blitpattern.go:65-87: ConvertPatternToRust *)
Definition convert_pattern_to_rust (words : list N) (comment : str) : str :=
  lit "    // " ++ comment ++ nl ++ lit "    " ++ word_lines (length words) words ++ nl.

(** ** codegen/lib/glyphset.go *)

(** glyphset.go:23-31: the text in GS.Code, from the pattern with offset [dataLen] on.
    A Hex string that StringFromHexGC accepts is ASCII. *)
Fixpoint code_text (printable : N -> bool) (dataLen : N) (pl : list blitpattern) : res str :=
  match pl with
  | [] => Ret []
  | p :: rest =>
      cluster <- cluster_of (bp_cs p) ;;
      let label := label_for_cluster printable cluster in
      let comment := lit "[" ++ fmt_d dataLen ++ lit "]: " ++ cs_hex (bp_cs p) ++ lit " " ++ label in
      more <- code_text printable (dataLen + N.of_nat (length (bp_words p))) rest ;;
      Ret (convert_pattern_to_rust (bp_words p) comment ++ more)
  end.

(** ** codegen/lib/ublock.go *)

(** ublock.go:20-61: the names, in the order of [known_blocks] *)
Definition block_names : list string :=
  [ "BASIC_LATIN"; "LATIN_1_SUPPLEMENT"; "LATIN_EXTENDED_A"; "GENERAL_PUNCTUATION";
    "CURRENCY_SYMBOLS"; "LETTERLIKE_SYMBOLS"; "ARROWS"; "MISCELLANEOUS_TECHNICAL";
    "ENCLOSED_ALPHANUMERICS"; "GEOMETRIC_SHAPES"; "MISCELLANEOUS_SYMBOLS"; "DINGBATS";
    "SUPPLEMENTAL_ARROWS_B"; "MISCELLANEOUS_SYMBOLS_AND_ARROWS"; "CJK_SYMBOLS_AND_PUNCTUATION";
    "ENCLOSED_CJK_LETTERS_AND_MONTHS"; "CJK_UNIFIED_IDEOGRAPHS_EXTENSION_A";
    "CJK_UNIFIED_IDEOGRAPHS"; "PRIVATE_USE_AREA"; "SPECIALS"; "HALFWIDTH_AND_FULLWIDTH_FORMS";
    "MAHJONG_TILES"; "PLAYING_CARDS"; "ENCLOSED_ALPHANUMERIC_SUPPLEMENT";
    "ENCLOSED_IDEOGRAPHIC_SUPPLEMENT"; "MISCELLANEOUS_SYMBOLS_AND_PICTOGRAPHS"; "EMOTICONS";
    "TRANSPORT_AND_MAP_SYMBOLS"; "GEOMETRIC_SHAPES_EXTENDED";
    "SUPPLEMENTAL_SYMBOLS_AND_PICTOGRAPHS"; "SYMBOLS_AND_PICTOGRAPHS_EXTENDED_A";
    "CJK_UNIFIED_IDEOGRAPHS_EXTENSION_B"; "CJK_UNIFIED_IDEOGRAPHS_EXTENSION_C";
    "CJK_UNIFIED_IDEOGRAPHS_EXTENSION_D"; "CJK_UNIFIED_IDEOGRAPHS_EXTENSION_E";
    "CJK_UNIFIED_IDEOGRAPHS_EXTENSION_F"; "CJK_COMPATIBILITY_IDEOGRAPHS_SUPPLEMENT";
    "CJK_UNIFIED_IDEOGRAPHS_EXTENSION_G" ]%string.

(** UBlock.Name *)
Definition block_name (k : ublock) : str :=
  match find (fun kn => ublock_eqb (fst kn) k) (combine known_blocks block_names) with
  | Some (_, name) => lit name
  | None => []
  end.

(** strings.ToLower on ASCII *)
Definition to_lower (s : str) : str :=
  map (fun c => if (65 <=? c) && (c <=? 90) then c + 32 else c) s.

(** ** codegen/lib/templates.go *)

(** Identifiers the template builds (lines 104, 120, 122, 123, 129, 134) *)
Definition find_ident (k : ublock) : str := lit "find_" ++ to_lower (block_name k).
Definition hash_ident (k : ublock) : str := lit "HASH_" ++ block_name k.
Definition offset_ident (k : ublock) : str := lit "OFFSET_" ++ block_name k.

(** templates.go:104-106: one attempt *)
Definition try_text (name : str) (k : ublock) (gcLen : N) : str :=
  lit "if let Some((offset, bytes_used)) = " ++ find_ident k ++ lit "(cluster, " ++ fmt_d gcLen
  ++ lit ") {" ++ nl ++ lit "                Ok((GlyphData::" ++ name ++ lit "(offset), bytes_used))" ++ nl
  ++ lit "            } else ".

(** templates.go:101-110: one arm; [with] leaves out an empty index *)
Definition arm_text (name : str) (kb : ublock * block_index) : str :=
  let '(k, dex) := kb in
  match dex with
  | [] => []
  | _ =>
      lit "0x" ++ fmt_X (fst k) ++ lit "..=0x" ++ fmt_X (snd k) ++ lit " => {" ++ nl ++ lit "            "
      ++ flat_map (try_text name k) (cluster_length_list dex)
      ++ lit "{" ++ nl ++ lit "                Err(NoGlyphErr)" ++ nl ++ lit "            }" ++ nl
      ++ lit "        }" ++ nl ++ lit "        "
  end.

(** templates.go:117-138: function and tables of one block *)
Definition block_text (printable : N -> bool) (kb : ublock * block_index) : str :=
  let '(k, dex) := kb in
  match dex with
  | [] => []
  | _ =>
      lit "/// Use binary search on table of grapheme cluster hashes to find blit pattern for grapheme cluster." ++ nl
      ++ lit "/// Only attempt to match grapheme clusters of length limit codepoints." ++ nl
      ++ lit "fn " ++ find_ident k ++ lit "(cluster: &str, limit: u32) -> Option<(usize, usize)> {" ++ nl
      ++ lit "    let (key, bytes_hashed) = super::murmur3(cluster, M3_SEED, limit);" ++ nl
      ++ lit "    match " ++ hash_ident k ++ lit ".binary_search(&key) {" ++ nl
      ++ lit "        Ok(index) => return Some((" ++ offset_ident k ++ lit "[index], bytes_hashed))," ++ nl
      ++ lit "        _ => None," ++ nl
      ++ lit "    }" ++ nl
      ++ lit "}" ++ nl
      ++ nl
      ++ lit "/// Index of murmur3(grapheme cluster); sort matches " ++ offset_ident k ++ nl
      ++ lit "const " ++ hash_ident k ++ lit ": [u32; " ++ fmt_d (N.of_nat (length dex)) ++ lit "] = [" ++ nl
      ++ lit "    " ++ code_for_hashes printable dex ++ nl
      ++ lit "];" ++ nl
      ++ nl
      ++ lit "/// Lookup table of blit pattern offsets; sort matches " ++ hash_ident k ++ nl
      ++ lit "const " ++ offset_ident k ++ lit ": [usize; " ++ fmt_d (N.of_nat (length dex)) ++ lit "] = [" ++ nl
      ++ lit "    " ++ code_for_offsets printable dex ++ nl
      ++ lit "];" ++ nl
      ++ nl
  end.

(** templates.go:162-164: the unit test's loop for one block *)
Definition test_text (kb : ublock * block_index) : str :=
  let '(k, _) := kb in
  nl ++ lit "        for i in 0.." ++ hash_ident k ++ lit ".len()-1 {" ++ nl
  ++ lit "            assert!(" ++ hash_ident k ++ lit "[i] < " ++ hash_ident k ++ lit "[i+1]);" ++ nl
  ++ lit "        }".

(** templates.go:62-73: up to the name of the font *)
Definition notice_text (legal name : str) : str :=
  lit "// DO NOT MAKE EDITS HERE because this file is automatically generated." ++ nl
  ++ lit "// To make changes, see blitstr/codegen/main.go" ++ nl
  ++ lit "//" ++ nl
  ++ lit "// Copyright (c) 2020 Sam Blenny" ++ nl
  ++ lit "// SPDX-License-Identifier: Apache-2.0 OR MIT" ++ nl
  ++ lit "//" ++ nl
  ++ lit "// NOTE: The copyright notice above applies to the rust source code in this" ++ nl
  ++ lit "// file, but not to the bitmap graphics encoded in the DATA array (see credits)." ++ nl
  ++ lit "//" ++ nl
  ++ lit "// CREDITS:" ++ nl
  ++ legal ++ nl
  ++ lit "//! " ++ name ++ lit " Font" ++ nl.

(** templates.go:74-100: up to the arms of the match *)
Definition head_text (size : Z) (m3Seed : N) : str :=
  lit "#![forbid(unsafe_code)]" ++ nl
  ++ lit "#![allow(dead_code)]" ++ nl
  ++ nl
  ++ lit "use super::{GlyphData, NoGlyphErr};" ++ nl
  ++ nl
  ++ lit "/// Maximum height of glyph patterns in this bitmap typeface." ++ nl
  ++ lit "/// This will be true: h + y_offset <= MAX_HEIGHT" ++ nl
  ++ lit "pub const MAX_HEIGHT: u8 = " ++ fmt_int size ++ lit ";" ++ nl
  ++ nl
  ++ lit "/// Seed for Murmur3 hashes in the HASH_* index arrays" ++ nl
  ++ lit "pub const M3_SEED: u32 = " ++ fmt_d m3Seed ++ lit ";" ++ nl
  ++ nl
  ++ lit "/// Return Okay(offset into DATA[]) for start of blit pattern for grapheme cluster." ++ nl
  ++ lit "///" ++ nl
  ++ lit "/// Before doing an expensive lookup for the whole cluster, this does a pre-filter" ++ nl
  ++ lit "/// check to see whether the first character falls into one of the codepoint ranges" ++ nl
  ++ lit "/// for Unicode blocks included in this font." ++ nl
  ++ lit "///" ++ nl
  ++ lit "/// Returns: Result<(blit pattern offset into DATA, bytes of cluster used by match)>" ++ nl
  ++ lit "pub fn get_blit_pattern_offset(cluster: &str) -> Result<(GlyphData, usize), NoGlyphErr> {" ++ nl
  ++ lit "    let first_char: u32;" ++ nl
  ++ lit "    match cluster.chars().next() {" ++ nl
  ++ lit "        Some(c) => first_char = c as u32," ++ nl
  ++ lit "        None => return Err(NoGlyphErr)," ++ nl
  ++ lit "    }" ++ nl
  ++ lit "    return match first_char {" ++ nl
  ++ lit "        ".

(** templates.go:112-115: after the arms *)
Definition arms_end_text : str :=
  lit "_ => Err(super::NoGlyphErr)," ++ nl
  ++ lit "    };" ++ nl
  ++ lit "}" ++ nl
  ++ nl.

(** templates.go:141-153: DATA *)
Definition data_text (dataLen : N) (code : str) : str :=
  lit "/// Packed glyph pattern data." ++ nl
  ++ lit "/// Record format:" ++ nl
  ++ lit "///  [offset+0]: ((w as u8) << 16) | ((h as u8) << 8) | (yOffset as u8)" ++ nl
  ++ lit "///  [offset+1..=ceil(w*h/32)]: packed 1-bit pixels; 0=clear, 1=set" ++ nl
  ++ lit "/// Pixels are packed in top to bottom, left to right order with MSB of first" ++ nl
  ++ lit "/// pixel word containing the top left pixel." ++ nl
  ++ lit "///  w: Width of pattern in pixels" ++ nl
  ++ lit "///  h: Height of pattern in pixels" ++ nl
  ++ lit "///  yOffset: Vertical offset (pixels downward from top of line) to position" ++ nl
  ++ lit "///     glyph pattern properly relative to text baseline" ++ nl
  ++ lit "pub const DATA: [u32; " ++ fmt_d dataLen ++ lit "] = [" ++ nl
  ++ code ++ lit "];" ++ nl
  ++ nl.

(** templates.go:154-166: the unit test *)
Definition tests_text (keys : list (ublock * block_index)) : str :=
  lit "#[cfg(test)]" ++ nl
  ++ lit "mod tests {" ++ nl
  ++ lit "    use super::*;" ++ nl
  ++ nl
  ++ lit "    #[test]" ++ nl
  ++ lit "    // If this fails, there's probably a hash collision, so change the seed." ++ nl
  ++ lit "    fn test_hashes_unique_and_sorted() {"
  ++ flat_map test_text keys ++ nl
  ++ lit "    }" ++ nl
  ++ lit "}" ++ nl.

(** templates.go:19-22, 62-167: RenderFontFileTemplate; [code] is GS.Code *)
Definition font_file_text (printable : N -> bool) (f : fontspec) (legal : str) (g : glyph_set)
  (code : str) (m3Seed : N) : str :=
  let name := lit (fs_name f) in
  let keys := index_keys g in
  notice_text legal name ++ head_text (fs_size f) m3Seed
  ++ flat_map (arm_text name) keys ++ arms_end_text
  ++ flat_map (block_text printable) keys
  ++ data_text (gs_len g) code
  ++ tests_text keys.

(** main.go:34-43: the text of one font file *)
Definition generate_text (printable : N -> bool) (f : fontspec) (legal : str) (img : image)
  (csList : list charspec) (aliasList : list gcalias) : res str :=
  pl <- pattern_list img f csList ;;
  g <- new_glyph_set_from pl (fs_seed f) ;;
  code <- code_text printable 0 pl ;;
  g <- add_aliases g aliasList (fs_seed f) ;;
  Ret (font_file_text printable f legal g code (fs_seed f)).
