#!/usr/bin/env python3
"""Writes /verif/properties.jsonl (one JSON object per line)."""
import json
P=[]
def p(id,title,statement,quantifier,why,anchors):
    P.append(dict(id=id,title=title,statement=statement,quantifier=quantifier,why_tests_cant=why,anchors=anchors))

B="src/blit.rs"
p("C01","ClipRect::new normalises its corners",
  "ClipRect::new(ax, ay, bx, by) returns a rectangle whose min is the componentwise minimum and whose max is the componentwise maximum of the two corners; swapping the corners, or only their x or only their y coordinates, gives the same rectangle; a rectangle that is already normalised is returned unchanged.",
  "all quadruples of usize coordinates","four unbounded integers; tests try three corner orders of one rectangle",
  ["src/cliprect.rs: ClipRect::new"])
p("C02","GlyphStyle survives conversion to and from usize",
  "GlyphStyle::from(usize::from(style)) == style for every style, the three codes are distinct, and every number that is not a code converts to Regular without panicking.",
  "all styles and all usize values","usize has 2^32 or 2^64 values; the tests try one bad argument",
  ["src/glyphstyle.rs: GlyphStyle From<usize>/Into<usize>"])
p("C03","glyph_to_height_hint agrees with the line height painting uses",
  "For every style the hint is a line height large enough for every Latin glyph of that style (glyph height plus vertical offset), and it is the line height the cursor carries after painting a Latin glyph of that style on a fresh line.",
  "all styles, all Latin glyphs, all cursors and clips","ranges over every glyph in the tables and every cursor",
  ["src/glyphstyle.rs: glyph_to_height_hint", "src/blit.rs: xor_char", "src/fonts/*.rs: MAX_HEIGHT"])
p("C04","clear_region sets every pixel of the rectangle",
  "When the clip is on-screen and non-empty and the call returns, every pixel with min.x <= x < max.x and min.y <= y < max.y is set (clear).",
  "all frame buffers, all clips, both overflow-check modes","336*536 choose 2 rectangles and 2^188672 frame buffers",
  [B+": clear_region"])
p("C05","clear_region leaves every pixel outside the rectangle alone",
  "clear_region changes no pixel outside the clip rectangle. (False of the code when the left and right edges are in the same 32-pixel word, and in release builds when max.x is a multiple of 32; the exact set of pixels changed is stated and proved.)",
  "all frame buffers, all clips, both overflow-check modes","the tests only clear the full screen, where the fault cannot show",
  [B+": clear_region"])
p("C06","clear_region never panics",
  "clear_region returns normally for every frame buffer and clip. (False of the code with overflow checks on, exactly when the clip is valid, max.x is a multiple of 32 and the clip spans more than one word; proved otherwise.)",
  "all frame buffers, all clips, both overflow-check modes","needs every alignment of both edges",
  [B+": clear_region"])
p("C07","clear_region ignores empty and off-screen rectangles",
  "If max.y > LINES or max.x > WIDTH or min.y >= max.y or min.x >= max.x the frame buffer is returned unchanged.",
  "all frame buffers and all such clips","unbounded coordinates",[B+": clear_region"])
p("C08","clear_region is idempotent, only ever sets pixels, and keeps the buffer shape",
  "Clearing twice is the same as clearing once; a set pixel is never reset; the buffer keeps its length.",
  "all frame buffers, all clips","all buffers",[B+": clear_region"])
p("C09","paint_str never panics for a sane clip and cursor",
  "For every frame buffer, string, style and clip, if the cursor is far enough from the top of the usize range that it cannot overflow, and the clip does not start in the last 16 columns while reaching the bottom line, paint_str returns normally, with overflow checks on or off. Outside that guard there are inputs that panic, and they are exhibited.",
  "all frame buffers, strings, styles, clips and cursors; both overflow-check modes; 32- and 64-bit usize",
  "indexing, slicing and shift panics depend on string contents, glyph widths and alignment together",
  [B+": paint_str, xor_char, newline","src/fonts.rs: GlyphData"])
p("C10","paint_str never touches a pixel outside the clip",
  "If the clip is at least 33 pixels wide and the cursor cannot overflow, every pixel outside min..max of the clip keeps its value. For narrower clips this is false of the code, and a witness is exhibited.",
  "all frame buffers, strings, styles, cursors and clips","every combination of string and geometry",
  [B+": paint_str, xor_char"])
p("C11","Painting the same text twice restores the frame buffer",
  "If paint_str returns normally, painting the same string again from the same starting cursor returns normally, restores every word of the original frame buffer, and leaves the same final cursor.",
  "all frame buffers, strings, styles, clips, cursors, modes","all buffers and strings",[B+": paint_str, xor_char"])
p("C12","Layout does not depend on what is in the frame buffer",
  "The final cursor, whether the call panics, and the set of pixels that get inverted are the same for any two frame buffers.",
  "all pairs of frame buffers, all strings, styles, clips, cursors","two-run property over all buffers",[B+": paint_str, xor_char"])
p("C13","A painted glyph inverts exactly the set pixels of its bitmap",
  "Painting one glyph inverts pixel (x0+i, y0+r) exactly when the bitmap of that glyph has column i of row r set and the row is inside the clip vertically; every other pixel keeps its value. The result does not depend on word alignment.",
  "all glyphs, positions, clips, frame buffers","32 alignments x all widths x all rows x all data words",
  [B+": xor_char","src/fonts.rs: GlyphData::header, nth_word"])
p("C14","paint_str refines the layout specification",
  "For a clip at least 36 pixels wide and a cursor that cannot overflow, paint_str computes exactly the layout spec: newline handling, glyph choice in order emoji, Latin style, hanzi, replacement; 1px left and 2px right padding; wrap when the padded glyph does not fit; stop at the first glyph below the clip; and the frame buffer is the old one with the listed glyph bitmaps XORed in.",
  "all frame buffers, strings, styles, clips, cursors","full functional correctness over unbounded strings",
  [B+": paint_str, xor_char, newline"])
p("C15","A glyph is never split by wrapping and never crosses the right edge",
  "With a clip at least 36 pixels wide, every glyph that is painted lies, with its 1px left and 2px right padding, strictly inside the horizontal range of the clip, and the cursor left behind is inside that range.",
  "all strings, clips, cursors","every width and every starting column",[B+": xor_char"])
p("C16","The cursor only moves forward",
  "If nothing overflows, paint_str never decreases cursor.y; while y stays the same, x never decreases and line_height never decreases.",
  "all strings, clips, cursors, styles","unbounded histories of glyphs",[B+": paint_str, newline, xor_char"])
p("C17","Newline goes to the left margin and down by the line height plus one",
  "Painting \"\\n\" sets cursor.x to clip.min.x, adds max(24, line_height) + 1 to cursor.y, resets line_height to 0, and draws nothing, whatever the clip.",
  "all cursors, clips, styles, frame buffers","unbounded",[B+": newline, paint_str"])
p("C18","line_height is the tallest glyph set used on the current line",
  "After painting, line_height is the maximum of its value at the start of the current line and the MAX_HEIGHT of every glyph set painted on that line since.",
  "all strings, clips, cursors","unbounded histories",[B+": xor_char, newline"])
p("C19","Painting a string in pieces equals painting it at once",
  "If the first piece is consumed completely, and the glyph segmentation of the concatenation splits at the seam, painting s1 then s2 with the same cursor gives the same frame buffer and cursor as painting s1 followed by s2 in one call; for printable ASCII text the segmentation condition always holds. Without these conditions it is false and witnesses are exhibited.",
  "all pairs of strings","unbounded strings; the test tries one sentence",[B+": paint_str","src/lib.rs: test_paint_str_full_string_vs_char_by_char"])
p("C20","Emoji and hanzi look the same in every style",
  "If every grapheme cluster of a string is found in the emoji or hanzi font (or is a newline) and none in a Latin block, the result is the same for all three styles.",
  "all such strings, all pairs of styles","all emoji/hanzi strings; the test tries one cat",[B+": paint_str"])
p("C21","Each unknown character is shown as one replacement glyph",
  "A character no font has a glyph for is painted as exactly one replacement character. (False of the code when the unknown character is last and earlier characters, or it, use several bytes: the replacement is painted repeatedly. Proved when a known character or newline follows.)",
  "all strings","depends on byte lengths of the whole string",[B+": paint_str"])
p("C22","Text below the clip is dropped, not drawn",
  "No row above min.y or at or below max.y is ever changed. Once the next glyph, of a character the fonts have, would start below clip.max.y, nothing more is drawn and the cursor stays put for the rest of the call. (False of the code for a character no font has: its replacement glyph is skipped and later, higher placed glyphs are still drawn; a witness is exhibited.)",
  "all strings, clips at least 36 wide, cursors","unbounded strings",[B+": xor_char, paint_str"])
p("C23","Painting the empty string does nothing",
  "paint_str with \"\" leaves frame buffer and cursor unchanged for any arguments.",
  "all frame buffers, clips, cursors, styles","universally quantified",[B+": paint_str"])
p("C24","Glyphs of one call never overlap",
  "When painting starts on a fresh line in a clip at least 36 wide, the bounding boxes of the glyphs painted by one call are pairwise disjoint, so no pixel is inverted twice.",
  "all strings, clips, cursors","pairs of glyphs at unbounded distance in a string",[B+": xor_char, newline","src/fonts/*.rs: DATA, MAX_HEIGHT"])
p("C25","An off-screen or empty-width clip draws nothing",
  "If clip.max.y > LINES or clip.max.x > WIDTH or clip.min.x >= clip.max.x, paint_str leaves the frame buffer unchanged and moves the cursor only for leading newlines.",
  "all such clips, strings, cursors","unbounded coordinates",[B+": xor_char, paint_str"])
p("C26","String slicing is always on a character boundary and the loop consumes the string",
  "For every string the slices taken by paint_str are at character boundaries, every iteration that draws a font glyph consumes at least one byte, and the s.len() iterations suffice to consume the whole string if no glyph is clipped.",
  "all valid UTF-8 strings","all mixes of 1-4 byte characters and all cluster lengths",[B+": paint_str","src/m3hash.rs: grapheme_cluster"])
p("C27","Independent paints commute",
  "Painting two strings, each with its own cursor, clip and style, gives the same frame buffer in either order.",
  "all pairs of paint calls, all frame buffers","two-run property",[B+": paint_str"])
p("C28","Every glyph record in every font is well formed",
  "Every offset in every OFFSET table points at a header with 1 <= w <= 32, h >= 1, h + y_offset <= MAX_HEIGHT, followed by all ceil(w*h/32) pixel words inside DATA; each OFFSET table is as long as its HASH table.",
  "all glyphs of all five fonts","the repo's tests check only that hashes are sorted",["src/fonts/*.rs: HASH_*, OFFSET_*, DATA, MAX_HEIGHT"])
p("C29","Every grapheme cluster in the font indices is found and maps to its own glyph",
  "For each cluster of the codegen index and alias lists, get_blit_pattern_offset of that font returns the offset of the record at that cluster's position in DATA and consumes exactly the cluster.",
  "all 12k index entries, all five fonts","tests look up a handful",["src/fonts/*.rs: get_blit_pattern_offset","codegen/src_data/*"])
p("C30","No character outside the index is shown as some other character",
  "For every single Unicode scalar value, a font finds a glyph for the one-character string if and only if that character is in the font's index (no hash collisions), and the block ranges are disjoint.",
  "all 1112064 scalar values, all five fonts","hash collisions are invisible to sampling",["src/fonts/*.rs","src/m3hash.rs: grapheme_cluster"])
p("C31","Characters of a multi-character text are never misread as one cluster",
  "Lookup consumes a multi-codepoint prefix only if that prefix is an index entry. (False of the code: hash collisions such as U+1F338 U+5411 swallow two characters; for the Latin fonts the complete list of colliding pairs is proved.)",
  "all strings","2^32-sized search space",["src/fonts/emoji.rs: get_blit_pattern_offset","src/m3hash.rs"])
p("C32","Lookup prefers the longest indexed cluster",
  "If lookup succeeds using n characters then no longer cluster length tried by that block would have matched; lookup depends only on the longest prefix it may use, and consumes a non-empty prefix of whole characters.",
  "all strings, all fonts","unbounded strings",["src/fonts/*.rs: get_blit_pattern_offset, find_*"])
p("C33","Composed and decomposed forms paint the same",
  "For each alias pair (NFC, NFD) of the Latin alias list, painting one or the other from the same cursor gives the same frame buffer and cursor in every style.",
  "all alias pairs, styles, cursors, clips, frame buffers","product of aliases with all geometry",["src/fonts/{small,regular,bold}.rs","codegen/src_data/latin_aliases.txt"])
p("C34","Table search finds a hash exactly when it is present",
  "On a strictly sorted table binary search returns the index of the key if present and nothing otherwise, for any length.",
  "all sorted tables, all keys","unbounded tables",["src/fonts/*.rs: HASH_*.binary_search"])
p("C35","The frame buffer hash notices any change to a single word",
  "Two frame buffers of equal length that differ in exactly one word have different frame_buffer hashes, for every seed; and two seeds give different hashes.",
  "all frame buffers of any length, seeds, positions, values","2^32 values per word",["src/m3hash.rs: frame_buffer"])
p("C36","grapheme_cluster hashes exactly a prefix of whole characters",
  "The result depends only on the first limit characters; the byte count returned is the UTF-8 length of exactly that prefix, hence a valid slice position.",
  "all strings, seeds, limits","all strings",["src/m3hash.rs: grapheme_cluster"])
p("C37","Two different single characters of equal encoded length never share a hash",
  "For every seed, grapheme_cluster with limit 1 is injective on characters with the same UTF-8 length.",
  "all pairs of characters, all seeds","2^40 pairs",["src/m3hash.rs: grapheme_cluster"])
p("C38","Code generator and run time compute the same hash",
  "The Go Murmur3 of a cluster equals the Rust grapheme_cluster hash of it for every limit at least its number of characters.",
  "all strings, seeds","all strings",["codegen/lib/murmur3.go: Murmur3","src/m3hash.rs: grapheme_cluster"])
p("C39","The demos never panic and erase what was there",
  "sample_text, short_greeting and goose_poem return normally for every frame buffer, and the visible pixels afterwards are the same whatever was there before; only the 16 padding bits per line are preserved.",
  "all initial frame buffers, both overflow modes, both usize widths","2^188672 buffers",["src/demo.rs"])
p("C40","Packing a glyph and painting it reproduces its pixel matrix",
  "For every matrix up to 32 pixels wide and 255 high, the words made by convertToPattern have the documented header, and painting them inverts pixel (x0+c, y0+r) exactly when m[r][c] is set.",
  "all pixel matrices, all positions","2^8160 matrices",["codegen/lib/matrix.go: convertToPattern","src/blit.rs: xor_char"])
p("C41","Trimming loses no ink",
  "The trimmed matrix, put back yOffset rows down and the trimmed number of columns right, has exactly the set pixels of the original; trim limits are respected.",
  "all matrices, all limits","all matrices",["codegen/lib/matrix.go: Trim, trimLeadingEmptyRows, transpose, reverseRows"])
p("C42","The block index stays sorted and complete",
  "After any sequence of inserts every block index is sorted by hash and contains exactly the inserted (hash, offset) pairs; the cluster length list is strictly descending and contains exactly the lengths present.",
  "all insert sequences","unbounded histories",["codegen/lib/blockindex.go","codegen/lib/glyphset.go"])
p("C43","Index offsets point at the right pattern",
  "After NewGlyphSetFrom, the DATA array is the concatenation of the patterns and the offset stored for the n-th cluster is where its pattern starts; an alias gets the offset of its canonical cluster.",
  "all pattern lists and alias lists","unbounded",["codegen/lib/glyphset.go"])
p("C44","Generated fonts find what was put in",
  "For a font generated from a pattern list without hash collisions, run-time lookup of any indexed cluster returns its pattern's offset, and painting it draws the source matrix.",
  "all pattern lists without collisions","unbounded",["codegen/lib/*.go","src/fonts/*.rs: get_blit_pattern_offset"])
p("C45","The web demo shows exactly the frame buffer",
  "After repaint, canvas pixel (x, y) is transparent exactly when frame buffer pixel (x, y) is set, for every on-screen x and y, although padding bits are also written.",
  "all frame buffers, all previous canvas contents","2^188672 buffers",["wasm_demo/main.js: repaint","wasm_demo/wasm.js: frameBuf"])
p("C46","A new frame buffer has the documented stripes",
  "In new_fr_buf() pixel (x, y) is set exactly when bit 4 of x is set, for every pixel, and the buffer has WORDS_PER_LINE * LINES words.",
  "all pixel coordinates","all coordinates",["src/framebuffer.rs: new_fr_buf"])
p("C47","Point order is lexicographic",
  "Pt comparison orders by x, then y: it is a strict total order consistent with equality.",
  "all pairs and triples of points","unbounded coordinates",["src/pt.rs: Pt derive(PartialOrd, PartialEq)"])
exec(open(__file__.replace("mkprops.py","moreprops.py")).read()) if __import__("os").path.exists(__file__.replace("mkprops.py","moreprops.py")) else None
open("/verif/properties.jsonl","w").write("".join(json.dumps(x)+"\n" for x in P))
