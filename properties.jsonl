{"id": "C01", "title": "ClipRect::new normalises its corners", "statement": "ClipRect::new(ax, ay, bx, by) returns a rectangle whose min is the componentwise minimum and whose max is the componentwise maximum of the two corners; swapping the corners, or only their x or only their y coordinates, gives the same rectangle; a rectangle that is already normalised is returned unchanged.", "quantifier": "all quadruples of usize coordinates", "why_tests_cant": "four unbounded integers; tests try three corner orders of one rectangle", "anchors": ["src/cliprect.rs: ClipRect::new"]}
{"id": "C02", "title": "GlyphStyle survives conversion to and from usize", "statement": "GlyphStyle::from(usize::from(style)) == style for every style, the three codes are distinct, and every number that is not a code converts to Regular without panicking.", "quantifier": "all styles and all usize values", "why_tests_cant": "usize has 2^32 or 2^64 values; the tests try one bad argument", "anchors": ["src/glyphstyle.rs: GlyphStyle From<usize>/Into<usize>"]}
{"id": "C03", "title": "glyph_to_height_hint agrees with the line height painting uses", "statement": "For every style the hint is a line height large enough for every Latin glyph of that style (glyph height plus vertical offset), and it is the line height the cursor carries after painting a Latin glyph of that style on a fresh line.", "quantifier": "all styles, all Latin glyphs, all cursors and clips", "why_tests_cant": "ranges over every glyph in the tables and every cursor", "anchors": ["src/glyphstyle.rs: glyph_to_height_hint", "src/blit.rs: xor_char", "src/fonts/*.rs: MAX_HEIGHT"]}
{"id": "C04", "title": "clear_region sets every pixel of the rectangle", "statement": "When the clip is on-screen and non-empty and the call returns, every pixel with min.x <= x < max.x and min.y <= y < max.y is set (clear).", "quantifier": "all frame buffers, all clips, both overflow-check modes", "why_tests_cant": "336*536 choose 2 rectangles and 2^188672 frame buffers", "anchors": ["src/blit.rs: clear_region"]}
{"id": "C05", "title": "clear_region leaves every pixel outside the rectangle alone", "statement": "clear_region changes no pixel outside the clip rectangle. (False of the code when the left and right edges are in the same 32-pixel word, and in release builds when max.x is a multiple of 32; the exact set of pixels changed is stated and proved.)", "quantifier": "all frame buffers, all clips, both overflow-check modes", "why_tests_cant": "the tests only clear the full screen, where the fault cannot show", "anchors": ["src/blit.rs: clear_region"]}
{"id": "C06", "title": "clear_region never panics", "statement": "clear_region returns normally for every frame buffer and clip. (False of the code with overflow checks on, exactly when the clip is valid, max.x is a multiple of 32 and the clip spans more than one word; proved otherwise.)", "quantifier": "all frame buffers, all clips, both overflow-check modes", "why_tests_cant": "needs every alignment of both edges", "anchors": ["src/blit.rs: clear_region"]}
{"id": "C07", "title": "clear_region ignores empty and off-screen rectangles", "statement": "If max.y > LINES or max.x > WIDTH or min.y >= max.y or min.x >= max.x the frame buffer is returned unchanged.", "quantifier": "all frame buffers and all such clips", "why_tests_cant": "unbounded coordinates", "anchors": ["src/blit.rs: clear_region"]}
{"id": "C08", "title": "clear_region is idempotent, only ever sets pixels, and keeps the buffer shape", "statement": "Clearing twice is the same as clearing once; a set pixel is never reset; the buffer keeps its length.", "quantifier": "all frame buffers, all clips", "why_tests_cant": "all buffers", "anchors": ["src/blit.rs: clear_region"]}
{"id": "C09", "title": "paint_str never panics for a sane clip and cursor", "statement": "For every frame buffer, string, style and clip, if the cursor is far enough from the top of the usize range that it cannot overflow, and the clip does not start in the last 16 columns while reaching the bottom line, paint_str returns normally, with overflow checks on or off. Outside that guard there are inputs that panic, and they are exhibited.", "quantifier": "all frame buffers, strings, styles, clips and cursors; both overflow-check modes; 32- and 64-bit usize", "why_tests_cant": "indexing, slicing and shift panics depend on string contents, glyph widths and alignment together", "anchors": ["src/blit.rs: paint_str, xor_char, newline", "src/fonts.rs: GlyphData"]}
{"id": "C10", "title": "paint_str never touches a pixel outside the clip", "statement": "If the clip is at least 33 pixels wide and the cursor cannot overflow, every pixel outside min..max of the clip keeps its value. For narrower clips this is false of the code, and a witness is exhibited.", "quantifier": "all frame buffers, strings, styles, cursors and clips", "why_tests_cant": "every combination of string and geometry", "anchors": ["src/blit.rs: paint_str, xor_char"]}
{"id": "C11", "title": "Painting the same text twice restores the frame buffer", "statement": "If paint_str returns normally, painting the same string again from the same starting cursor returns normally, restores every word of the original frame buffer, and leaves the same final cursor.", "quantifier": "all frame buffers, strings, styles, clips, cursors, modes", "why_tests_cant": "all buffers and strings", "anchors": ["src/blit.rs: paint_str, xor_char"]}
{"id": "C12", "title": "Layout does not depend on what is in the frame buffer", "statement": "The final cursor, whether the call panics, and the set of pixels that get inverted are the same for any two frame buffers.", "quantifier": "all pairs of frame buffers, all strings, styles, clips, cursors", "why_tests_cant": "two-run property over all buffers", "anchors": ["src/blit.rs: paint_str, xor_char"]}
{"id": "C13", "title": "A painted glyph inverts exactly the set pixels of its bitmap", "statement": "Painting one glyph inverts pixel (x0+i, y0+r) exactly when the bitmap of that glyph has column i of row r set and the row is inside the clip vertically; every other pixel keeps its value. The result does not depend on word alignment.", "quantifier": "all glyphs, positions, clips, frame buffers", "why_tests_cant": "32 alignments x all widths x all rows x all data words", "anchors": ["src/blit.rs: xor_char", "src/fonts.rs: GlyphData::header, nth_word"]}
{"id": "C14", "title": "paint_str refines the layout specification", "statement": "For a clip at least 36 pixels wide and a cursor that cannot overflow, paint_str computes exactly the layout spec: newline handling, glyph choice in order emoji, Latin style, hanzi, replacement; 1px left and 2px right padding; wrap when the padded glyph does not fit; stop at the first glyph below the clip; and the frame buffer is the old one with the listed glyph bitmaps XORed in.", "quantifier": "all frame buffers, strings, styles, clips, cursors", "why_tests_cant": "full functional correctness over unbounded strings", "anchors": ["src/blit.rs: paint_str, xor_char, newline"]}
{"id": "C15", "title": "A glyph is never split by wrapping and never crosses the right edge", "statement": "With a clip at least 36 pixels wide, every glyph that is painted lies, with its 1px left and 2px right padding, strictly inside the horizontal range of the clip, and the cursor left behind is inside that range.", "quantifier": "all strings, clips, cursors", "why_tests_cant": "every width and every starting column", "anchors": ["src/blit.rs: xor_char"]}
{"id": "C16", "title": "The cursor only moves forward", "statement": "If nothing overflows, paint_str never decreases cursor.y; while y stays the same, x never decreases and line_height never decreases.", "quantifier": "all strings, clips, cursors, styles", "why_tests_cant": "unbounded histories of glyphs", "anchors": ["src/blit.rs: paint_str, newline, xor_char"]}
{"id": "C17", "title": "Newline goes to the left margin and down by the line height plus one", "statement": "Painting \"\\n\" sets cursor.x to clip.min.x, adds max(24, line_height) + 1 to cursor.y, resets line_height to 0, and draws nothing, whatever the clip.", "quantifier": "all cursors, clips, styles, frame buffers", "why_tests_cant": "unbounded", "anchors": ["src/blit.rs: newline, paint_str"]}
{"id": "C18", "title": "line_height is the tallest glyph set used on the current line", "statement": "After painting, line_height is the maximum of its value at the start of the current line and the MAX_HEIGHT of every glyph set painted on that line since.", "quantifier": "all strings, clips, cursors", "why_tests_cant": "unbounded histories", "anchors": ["src/blit.rs: xor_char, newline"]}
{"id": "C19", "title": "Painting a string in pieces equals painting it at once", "statement": "If the first piece is consumed completely, and the glyph segmentation of the concatenation splits at the seam, painting s1 then s2 with the same cursor gives the same frame buffer and cursor as painting s1 followed by s2 in one call; for printable ASCII text the segmentation condition always holds. Without these conditions it is false and witnesses are exhibited.", "quantifier": "all pairs of strings", "why_tests_cant": "unbounded strings; the test tries one sentence", "anchors": ["src/blit.rs: paint_str", "src/lib.rs: test_paint_str_full_string_vs_char_by_char"]}
{"id": "C20", "title": "Emoji and hanzi look the same in every style", "statement": "If every grapheme cluster of a string is found in the emoji or hanzi font (or is a newline) and none in a Latin block, the result is the same for all three styles.", "quantifier": "all such strings, all pairs of styles", "why_tests_cant": "all emoji/hanzi strings; the test tries one cat", "anchors": ["src/blit.rs: paint_str"]}
{"id": "C21", "title": "Each unknown character is shown as one replacement glyph", "statement": "A character no font has a glyph for is painted as exactly one replacement character. (False of the code when the unknown character is last and earlier characters, or it, use several bytes: the replacement is painted repeatedly. Proved when a known character or newline follows.)", "quantifier": "all strings", "why_tests_cant": "depends on byte lengths of the whole string", "anchors": ["src/blit.rs: paint_str"]}
{"id": "C22", "title": "Text below the clip is dropped, not drawn", "statement": "No row above min.y or at or below max.y is ever changed. Once the next glyph, of a character the fonts have, would start below clip.max.y, nothing more is drawn and the cursor stays put for the rest of the call. (False of the code for a character no font has: its replacement glyph is skipped and later, higher placed glyphs are still drawn; a witness is exhibited.)", "quantifier": "all strings, clips at least 36 wide, cursors", "why_tests_cant": "unbounded strings", "anchors": ["src/blit.rs: xor_char, paint_str"]}
{"id": "C23", "title": "Painting the empty string does nothing", "statement": "paint_str with \"\" leaves frame buffer and cursor unchanged for any arguments.", "quantifier": "all frame buffers, clips, cursors, styles", "why_tests_cant": "universally quantified", "anchors": ["src/blit.rs: paint_str"]}
{"id": "C24", "title": "Glyphs of one call never overlap", "statement": "When painting starts on a fresh line in a clip at least 36 wide, the bounding boxes of the glyphs painted by one call are pairwise disjoint, so no pixel is inverted twice.", "quantifier": "all strings, clips, cursors", "why_tests_cant": "pairs of glyphs at unbounded distance in a string", "anchors": ["src/blit.rs: xor_char, newline", "src/fonts/*.rs: DATA, MAX_HEIGHT"]}
{"id": "C25", "title": "An off-screen or empty-width clip draws nothing", "statement": "If clip.max.y > LINES or clip.max.x > WIDTH or clip.min.x >= clip.max.x, paint_str leaves the frame buffer unchanged and moves the cursor only for leading newlines.", "quantifier": "all such clips, strings, cursors", "why_tests_cant": "unbounded coordinates", "anchors": ["src/blit.rs: xor_char, paint_str"]}
{"id": "C26", "title": "String slicing is always on a character boundary and the loop consumes the string", "statement": "For every string the slices taken by paint_str are at character boundaries, every iteration that draws a font glyph consumes at least one byte, and the s.len() iterations suffice to consume the whole string if no glyph is clipped.", "quantifier": "all valid UTF-8 strings", "why_tests_cant": "all mixes of 1-4 byte characters and all cluster lengths", "anchors": ["src/blit.rs: paint_str", "src/m3hash.rs: grapheme_cluster"]}
{"id": "C27", "title": "Independent paints commute", "statement": "Painting two strings, each with its own cursor, clip and style, gives the same frame buffer in either order.", "quantifier": "all pairs of paint calls, all frame buffers", "why_tests_cant": "two-run property", "anchors": ["src/blit.rs: paint_str"]}
{"id": "C28", "title": "Every glyph record in every font is well formed", "statement": "Every offset in every OFFSET table points at a header with 1 <= w <= 32, h >= 1, h + y_offset <= MAX_HEIGHT, followed by all ceil(w*h/32) pixel words inside DATA; each OFFSET table is as long as its HASH table.", "quantifier": "all glyphs of all five fonts", "why_tests_cant": "the repo's tests check only that hashes are sorted", "anchors": ["src/fonts/*.rs: HASH_*, OFFSET_*, DATA, MAX_HEIGHT"]}
{"id": "C29", "title": "Every grapheme cluster in the font indices is found and maps to its own glyph", "statement": "For each cluster of the codegen index and alias lists, get_blit_pattern_offset of that font returns the offset of the record at that cluster's position in DATA and consumes exactly the cluster.", "quantifier": "all 12k index entries, all five fonts", "why_tests_cant": "tests look up a handful", "anchors": ["src/fonts/*.rs: get_blit_pattern_offset", "codegen/src_data/*"]}
{"id": "C30", "title": "No character outside the index is shown as some other character", "statement": "For every single Unicode scalar value, a font finds a glyph for the one-character string if and only if that character is in the font's index (no hash collisions), and the block ranges are disjoint.", "quantifier": "all 1112064 scalar values, all five fonts", "why_tests_cant": "hash collisions are invisible to sampling", "anchors": ["src/fonts/*.rs", "src/m3hash.rs: grapheme_cluster"]}
{"id": "C31", "title": "Characters of a multi-character text are never misread as one cluster", "statement": "Lookup consumes a multi-codepoint prefix only if that prefix is an index entry. (False of the code: hash collisions such as U+1F338 U+5411 swallow two characters; for the Latin fonts the complete list of colliding pairs is proved.)", "quantifier": "all strings", "why_tests_cant": "2^32-sized search space", "anchors": ["src/fonts/emoji.rs: get_blit_pattern_offset", "src/m3hash.rs"]}
{"id": "C32", "title": "Lookup prefers the longest indexed cluster", "statement": "If lookup succeeds using n characters then no longer cluster length tried by that block would have matched; lookup depends only on the longest prefix it may use, and consumes a non-empty prefix of whole characters.", "quantifier": "all strings, all fonts", "why_tests_cant": "unbounded strings", "anchors": ["src/fonts/*.rs: get_blit_pattern_offset, find_*"]}
{"id": "C33", "title": "Composed and decomposed forms paint the same", "statement": "For each alias pair (NFC, NFD) of the Latin alias list, painting one or the other from the same cursor gives the same frame buffer and cursor in every style.", "quantifier": "all alias pairs, styles, cursors, clips, frame buffers", "why_tests_cant": "product of aliases with all geometry", "anchors": ["src/fonts/{small,regular,bold}.rs", "codegen/src_data/latin_aliases.txt"]}
{"id": "C34", "title": "Table search finds a hash exactly when it is present", "statement": "On a strictly sorted table binary search returns the index of the key if present and nothing otherwise, for any length.", "quantifier": "all sorted tables, all keys", "why_tests_cant": "unbounded tables", "anchors": ["src/fonts/*.rs: HASH_*.binary_search"]}
{"id": "C35", "title": "The frame buffer hash notices any change to a single word", "statement": "Two frame buffers of equal length that differ in exactly one word have different frame_buffer hashes, for every seed; and two seeds give different hashes.", "quantifier": "all frame buffers of any length, seeds, positions, values", "why_tests_cant": "2^32 values per word", "anchors": ["src/m3hash.rs: frame_buffer"]}
{"id": "C36", "title": "grapheme_cluster hashes exactly a prefix of whole characters", "statement": "The result depends only on the first limit characters; the byte count returned is the UTF-8 length of exactly that prefix, hence a valid slice position.", "quantifier": "all strings, seeds, limits", "why_tests_cant": "all strings", "anchors": ["src/m3hash.rs: grapheme_cluster"]}
{"id": "C37", "title": "Two different single characters of equal encoded length never share a hash", "statement": "For every seed, grapheme_cluster with limit 1 is injective on characters with the same UTF-8 length.", "quantifier": "all pairs of characters, all seeds", "why_tests_cant": "2^40 pairs", "anchors": ["src/m3hash.rs: grapheme_cluster"]}
{"id": "C38", "title": "Code generator and run time compute the same hash", "statement": "The Go Murmur3 of a cluster equals the Rust grapheme_cluster hash of it for every limit at least its number of characters.", "quantifier": "all strings, seeds", "why_tests_cant": "all strings", "anchors": ["codegen/lib/murmur3.go: Murmur3", "src/m3hash.rs: grapheme_cluster"]}
{"id": "C39", "title": "The demos never panic and erase what was there", "statement": "sample_text, short_greeting and goose_poem return normally for every frame buffer, and the visible pixels afterwards are the same whatever was there before; only the 16 padding bits per line are preserved.", "quantifier": "all initial frame buffers, both overflow modes, both usize widths", "why_tests_cant": "2^188672 buffers", "anchors": ["src/demo.rs"]}
{"id": "C40", "title": "Packing a glyph and painting it reproduces its pixel matrix", "statement": "For every matrix up to 32 pixels wide and 255 high, the words made by convertToPattern have the documented header, and painting them inverts pixel (x0+c, y0+r) exactly when m[r][c] is set.", "quantifier": "all pixel matrices, all positions", "why_tests_cant": "2^8160 matrices", "anchors": ["codegen/lib/matrix.go: convertToPattern", "src/blit.rs: xor_char"]}
{"id": "C41", "title": "Trimming loses no ink", "statement": "The trimmed matrix, put back yOffset rows down and the trimmed number of columns right, has exactly the set pixels of the original; trim limits are respected.", "quantifier": "all matrices, all limits", "why_tests_cant": "all matrices", "anchors": ["codegen/lib/matrix.go: Trim, trimLeadingEmptyRows, transpose, reverseRows"]}
{"id": "C42", "title": "The block index stays sorted and complete", "statement": "After any sequence of inserts every block index is sorted by hash and contains exactly the inserted (hash, offset) pairs; the cluster length list is strictly descending and contains exactly the lengths present.", "quantifier": "all insert sequences", "why_tests_cant": "unbounded histories", "anchors": ["codegen/lib/blockindex.go", "codegen/lib/glyphset.go"]}
{"id": "C43", "title": "Index offsets point at the right pattern", "statement": "After NewGlyphSetFrom, the DATA array is the concatenation of the patterns and the offset stored for the n-th cluster is where its pattern starts; an alias gets the offset of its canonical cluster.", "quantifier": "all pattern lists and alias lists", "why_tests_cant": "unbounded", "anchors": ["codegen/lib/glyphset.go"]}
{"id": "C44", "title": "Generated fonts find what was put in", "statement": "For a font generated from a pattern list without hash collisions, run-time lookup of any indexed cluster returns its pattern's offset, and painting it draws the source matrix.", "quantifier": "all pattern lists without collisions", "why_tests_cant": "unbounded", "anchors": ["codegen/lib/*.go", "src/fonts/*.rs: get_blit_pattern_offset"]}
{"id": "C45", "title": "The web demo shows exactly the frame buffer", "statement": "After repaint, canvas pixel (x, y) is transparent exactly when frame buffer pixel (x, y) is set, for every on-screen x and y, although padding bits are also written.", "quantifier": "all frame buffers, all previous canvas contents", "why_tests_cant": "2^188672 buffers", "anchors": ["wasm_demo/main.js: repaint", "wasm_demo/wasm.js: frameBuf"]}
{"id": "C46", "title": "A new frame buffer has the documented stripes", "statement": "In new_fr_buf() pixel (x, y) is set exactly when bit 4 of x is set, for every pixel, and the buffer has WORDS_PER_LINE * LINES words.", "quantifier": "all pixel coordinates", "why_tests_cant": "all coordinates", "anchors": ["src/framebuffer.rs: new_fr_buf"]}
{"id": "C47", "title": "Point order is lexicographic", "statement": "Pt comparison orders by x, then y: it is a strict total order consistent with equality.", "quantifier": "all pairs and triples of points", "why_tests_cant": "unbounded coordinates", "anchors": ["src/pt.rs: Pt derive(PartialOrd, PartialEq)"]}
{"id": "C48", "title": "ASCII text is painted one glyph per character, each its own", "statement": "For printable ASCII text with newlines that fits the clip, the painted glyphs are, in order, one per character other than newline, all from the style's Latin font, and each is the glyph record at the character's position in the Latin index list.", "quantifier": "all ASCII strings, styles, clips, cursors", "why_tests_cant": "all strings over 96 characters; a hash collision of any two or three adjacent characters with an emoji would break it", "anchors": ["src/blit.rs: paint_str, xor_char", "src/fonts/{emoji,small,regular,bold}.rs", "codegen/src_data/latin_index.json"]}
{"id": "C49", "title": "Documented order of packed pixels", "statement": "The comments say that pixels are packed left to right, then top to bottom, with the top-left pixel in the most significant bit of the first word, and zeros after the last pixel.", "quantifier": "all pixel matrices", "why_tests_cant": "a document can only be compared with code by reading; tests of the fonts use hashes of painted frames and pass with either order", "anchors": ["codegen/lib/matrix.go:30-34", "codegen/lib/templates.go:141-146", "codegen/lib/matrix.go: convertToPattern"]}
{"id": "C50", "title": "Cluster names are read back", "statement": "For every non-empty sequence of Unicode scalar values, StringFromHexGC of its hexadecimal codepoints joined by '-' returns that sequence.", "quantifier": "all clusters", "why_tests_cant": "unboundedly many clusters; about 1.1 million values per position", "anchors": ["codegen/lib/charspec.go: StringFromHexGC"]}
{"id": "C51", "title": "The generated unit test finds every hash collision", "statement": "test_hashes_unique_and_sorted, which the generator writes into each font file, passes exactly when no two indexed clusters or aliases of a Unicode block have the same hash.", "quantifier": "all font specifications, sheets, index and alias lists", "why_tests_cant": "the test is run on the committed tables only; that it is sufficient for every other index or seed needs a proof about the generator", "anchors": ["codegen/lib/templates.go:153-165", "codegen/lib/blockindex.go: Insert", "codegen/lib/glyphset.go"]}
{"id": "C52", "title": "Generation succeeds on valid input", "statement": "If every listed cell is on the sheet and has ink (or its trim limits leave something), all names parse, all clusters start in a known block and every alias has a canonical cluster in the index, the generator does not panic.", "quantifier": "all font specifications, sheets, index and alias lists", "why_tests_cant": "unbounded inputs; panics are in several places (Trim, Block, FindDataOffset, NewBlitPattern)", "anchors": ["codegen/main.go: codegen", "codegen/lib/*.go"]}
{"id": "C53", "title": "Row-major index files are read line by line", "statement": "EmojiMap gives the n-th name of an index file row n / columns and column n mod columns; the names are those of the lines in order, and comments, white space around names, and lines without a name change nothing.", "quantifier": "all texts; all numbers of columns", "why_tests_cant": "unbounded files with any mixture of comments, blank lines and Unicode white space", "anchors": ["codegen/lib/charspec.go: EmojiMap"]}
{"id": "C54", "title": "Alias files are read line by line", "statement": "EmojiAliases returns, in order, the pair of names of every line that has two names separated by white space.", "quantifier": "all texts", "why_tests_cant": "unbounded files; the committed files use single spaces only", "anchors": ["codegen/lib/charspec.go: EmojiAliases"]}
{"id": "C55", "title": "The committed fonts are the committed pictures", "statement": "Running the generator on the committed sprite sheets, index files and alias files gives exactly the committed fonts, and every cluster of an index (and every alias) is found with the glyph that is its picture on the sheet, trimmed to its ink.", "quantifier": "all fonts, all clusters, all images that agree with the sheet inside its bounds", "why_tests_cant": "about 12000 glyphs with 1024 pixels each; running the generator shows equal files, not that the files mean the pictures", "anchors": ["codegen/main.go", "codegen/config.json", "codegen/lib/*.go", "codegen/src_data/*", "src/fonts/*.rs"]}
{"id": "C56", "title": "Painting a cluster shows its picture", "statement": "Painting a string that is one indexed cluster or alias inverts, inside the clip, exactly the black pixels of its picture on the sprite sheet of its font (Latin clusters with the font of the style), with the top of the picture at the cursor.", "quantifier": "all clusters of all fonts, styles, frame buffers, clips, cursors, build modes", "why_tests_cant": "thousands of clusters at every position on every background", "anchors": ["src/blit.rs: paint_str, xor_char", "src/fonts/*.rs", "codegen/src_data/*"]}
{"id": "C57", "title": "A generated file means the generated font", "statement": "Whenever the generator renders a font file, the text, read as Rust source, has exactly the height, seed, match arms with limits, hash and offset tables, and data of the font computed from the sheet, index and aliases.", "quantifier": "all font specifications, legal notices, sheets, index and alias lists", "why_tests_cant": "unboundedly many files; compiling one file shows that it is Rust, not that its tables are the computed ones; comments in the file contain characters of the index", "anchors": ["codegen/lib/templates.go", "codegen/lib/blitpattern.go: ConvertPatternToRust", "codegen/lib/blockindex.go", "codegen/lib/glyphset.go", "codegen/main.go:34-43"]}
{"id": "C58", "title": "The tool writes the committed fonts", "statement": "Run with --write on the committed configuration, index, alias and notice files and sheets, the tool finishes, writes the five font files in the order of config.json, and each reads as the committed font; bold.rs, regular.rs and small.rs are the committed files byte for byte.", "quantifier": "all implementations of strconv.IsPrint that hold the Latin characters to be printable; all images that agree with the sheets inside their bounds", "why_tests_cant": "one run can be compared with git diff, but depends on the Go version's Unicode tables and on reading pixels outside of the image", "anchors": ["codegen/main.go", "codegen/config.json", "codegen/lib/config.go", "codegen/src_data/*", "src/fonts/bold.rs", "src/fonts/regular.rs", "src/fonts/small.rs"]}
{"id": "C59", "title": "What a run of the tool writes", "statement": "The tool writes nothing unless its only argument is --write, and nothing if the configuration or any index, alias or notice file cannot be read; otherwise it writes the files of the sets in order up to the first set that fails; every written file is the file of its own set only.", "quantifier": "all argument lists, file contents, images", "why_tests_cant": "all combinations of missing and malformed files; failure in the middle of a run", "anchors": ["codegen/main.go", "codegen/lib/config.go"]}
{"id": "C60", "title": "The README's screenshots are what the code shows", "statement": "Every pixel of doc/goose_poem.png is the pixel the web demo's page shows after init, and every pixel of doc/short_greeting.png is the pixel it shows after short_greeting, whatever was in the frame buffer and on the canvas before.", "quantifier": "all frame buffers, canvases, build modes; all pixels of the images", "why_tests_cant": "the images are not compared with anything in the repository; tests fix the initial frame buffer", "anchors": ["README.md", "doc/goose_poem.png", "doc/short_greeting.png", "src/demo.rs", "wasm_demo/main.js", "wasm_demo/src/lib.rs"]}
{"id": "C61", "title": "The configuration script writes what the generator reads", "statement": "Run with the answer y or Y, config_editor.rb writes config.json, latin_index.json, latin_aliases.txt and icon_index.json exactly as committed; with any other answer it writes nothing. For all tables, the Go tool reads from the written files exactly the sets, rows and, for each cluster that differs from its canonical decomposition, the alias pair.", "quantifier": "all answers, tables, JSON values, decomposition functions", "why_tests_cant": "unboundedly many tables and strings; the script and the tool are in different languages and share no test", "anchors": ["codegen/config_editor.rb", "codegen/config.json", "codegen/src_data/latin_index.json", "codegen/src_data/latin_aliases.txt", "codegen/src_data/icon_index.json", "codegen/lib/config.go", "codegen/lib/charspec.go"]}
{"id": "C62", "title": "Painting a text shows its pictures side by side", "statement": "Painting a text of letters (composed or decomposed), hanzi and newlines inverts exactly the pixels where an odd number of the pictures of its clusters have ink, each picture trimmed to its inked columns and set beside the one before, with wrapping and line heights as documented; the cursor ends where the setting ends.", "quantifier": "all texts of the Latin and hanzi indexes, of any length; all styles, clips at least 36 wide, cursors, frame buffers, build modes", "why_tests_cant": "hash matching can read characters of neighbouring clusters together: 43 triples of ordinary characters among 95 x 8591 x 8591 do, and tests contain none of them; unbounded texts", "anchors": ["src/blit.rs: paint_str, xor_char, newline", "src/fonts/*.rs", "codegen/src_data/*"]}
{"id": "C63", "title": "Lines of text are as the README says", "statement": "Painted text is in lines: a line is as high as its tallest glyph (24 for Small, 30 for Regular and Bold, 32 for emoji and hanzi), no ink is outside those rows, lines do not touch, and no glyph reaches the right edge of the clip. A newline moves the cursor to the left edge of the clip and down by the height of the line; a glyph is moved to the next line exactly when it would be clipped.", "quantifier": "all texts read as their clusters, all styles, clips at least 36 wide, cursors, frame buffers, build modes", "why_tests_cant": "documented arithmetic, off by one in two places; unbounded texts and positions", "anchors": ["README.md: Usage", "src/blit.rs: paint_str, xor_char, newline"]}
{"id": "C64", "title": "Images are read from PNG files", "statement": "The generator reads an image from a file exactly if the file is a PNG file of that image (any chunking, any deflate encoding, any filters), every image has such a file, the colours of its pixels and the black ones among them are as the format says, and a file in which one byte of the type, data or check value of a chunk is wrong, or up to 32 consecutive bits of type and data, is rejected with a panic.", "quantifier": "all files, images, compressed streams", "why_tests_cant": "unboundedly many files and encodings; damage at every position", "anchors": ["codegen/main.go: readPNGFile"]}
{"id": "C65", "title": "The bytes of the image files are what the fonts and demos show", "statement": "The committed bytes of bold.png, regular.png and small.png decode to the black pixels from which the fonts are cut, a run that reads them writes the committed font files, and the bytes of the two screenshots decode to the pictures of what the demos show.", "quantifier": "all file systems containing these files; all frame buffers, canvases, build modes", "why_tests_cant": "the generated files are compared with the sheets by nobody but the generator; the screenshots are compared with nothing", "anchors": ["codegen/src_data/bold.png", "codegen/src_data/regular.png", "codegen/src_data/small.png", "doc/goose_poem.png", "doc/short_greeting.png", "codegen/main.go"]}
{"id": "C66", "title": "The generated texts are the templates, rendered", "statement": "Every font file and usage message is the text of the template in templates.go, read and executed by the rules of text/template on the computed context, and rendering a generated glyph set does not fail; for all templates of texts and fields, rendering puts the values in place of the actions, removes white space where asked, and repeats bodies for each element.", "quantifier": "all glyph sets, fonts, notices, argument lists; all texts, fields, elements", "why_tests_cant": "unboundedly many contexts; an error in a template is a panic only in the runs that reach it", "anchors": ["codegen/lib/templates.go", "codegen/lib/blockindex.go", "codegen/lib/glyphset.go", "codegen/lib/ublock.go", "codegen/main.go"]}
{"id": "C67", "title": "The comments of a font file name what stands beside them", "statement": "Every label of a cluster (quoted with escapes, followed by codepoints if there are several) reads back as that cluster, so labels are distinct; in a generated file the comment above each glyph's words gives its offset, its name in the index and its cluster, in the order of the index; the rows of the tables are, block by block, the hash and then the offset of each glyph and alias beside a label that reads as its cluster, an alias at the offset of a glyph.", "quantifier": "all clusters, whatever is printable; all sheets, indexes, alias lists, font names of one line, notices without rows", "why_tests_cant": "labels are comments, so no compiler or test looks at them; unboundedly many clusters", "anchors": ["codegen/lib/blockindex.go", "codegen/lib/glyphset.go", "codegen/lib/blitpattern.go", "codegen/lib/templates.go"]}
{"id": "C68", "title": "What a panic leaves behind", "statement": "paint_str, returning or panicking, has inverted exactly the on-screen pixels of the glyphs up to and including the first that reaches beyond the last word of the frame buffer, with the cursor at that glyph; clear_region, when it panics, has cleared exactly the top line of the rectangle. Painting the same again restores the frame buffer even after a panic; what is inverted does not depend on the contents. A newline that takes the line past the end of usize panics, in builds that check, with the cursor at the left margin of the old line.", "quantifier": "all strings, styles, clips that xor_char accepts, cursors, frame buffers, build modes; the last two for all clips and fonts", "why_tests_cant": "a test sees a panic, not the frame buffer that a caller who catches it (or the wasm host, whose memory survives) goes on with", "anchors": ["src/blit.rs: clear_region, paint_str, newline, xor_char"]}
{"id": "C69", "title": "The compiled demo is the module the page expects", "statement": "The bytes of demo.wasm are a WebAssembly module without imports that exports memory, init and frame_buf_ptr; before init its memory holds every table of the fonts and every text of the demos at the addresses the code uses, and a frame buffer as new_fr_buf makes it; frame_buf_ptr returns the address of that frame buffer and changes nothing.", "quantifier": "all bytes of the file, all entries of the tables, all memories for frame_buf_ptr", "why_tests_cant": "the committed binary is rebuilt by hand and compared with the sources by nobody", "anchors": ["wasm_demo/demo.wasm", "wasm_demo/wasm.js: loadModule, frameBuf", "wasm_demo/src/lib.rs: frame_buf_ptr, FB", "src/fonts/*.rs", "src/demo.rs"]}
{"id": "C70", "title": "Compiled clear_region clears what the source says", "statement": "clear_region as compiled in demo.wasm, run by the rules of WebAssembly on any memory that holds a frame buffer and a clip rectangle, returns without a trap, leaves the frame buffer that the source's clear_region leaves, and changes no other byte of memory and no global.", "quantifier": "all memories, frame buffers, clip rectangles with any 32-bit corners, addresses of the rectangle", "why_tests_cant": "optimised code with its own loop structure and address arithmetic; no test runs the committed binary", "anchors": ["wasm_demo/demo.wasm: function 1", "src/blit.rs: clear_region"]}
{"id": "C71", "title": "Compiled hashing and lookup find what the source finds", "statement": "In demo.wasm, grapheme_cluster leaves the hash and byte count of the source for every UTF-8 string; each of the 24 compiled find functions answers as its find function in the source on the tables of its block, writing only its answer and its frame; nth_word returns the word of the source and traps exactly where the source panics.", "quantifier": "all memories holding the tables, all strings, limits, addresses, stack pointers; all offsets and word numbers", "why_tests_cant": "the hash decides which glyph is shown; optimised UTF-8 decoding and binary search in a binary that no test runs", "anchors": ["wasm_demo/demo.wasm: functions 4-26, 29-32", "src/m3hash.rs: grapheme_cluster", "src/fonts.rs: murmur3, nth_word", "src/fonts/*.rs: find_*"]}
{"id": "C72", "title": "Compiled xor_char draws what the source draws", "statement": "In demo.wasm, xor_char changes the frame buffer and the cursor in memory exactly as the source does, for each of the five glyph sets, writes the answer of the source (the bytes used, or that there is no glyph), leaves the rest of memory except its frame as it was, and traps exactly where the source panics.", "quantifier": "all frame buffers, clips, cursors, non-empty strings, glyph sets, and memories holding them and the tables; all addresses between the stack pointer and the tables", "why_tests_cant": "rustc merged five lookups, the newline, the row loop and the panics into one function of 56 nested blocks; no test runs the binary", "anchors": ["wasm_demo/demo.wasm: function 27", "src/blit.rs: xor_char, newline", "src/fonts/*.rs: get_blit_pattern_offset"]}
{"id": "C73", "title": "Compiled paint_str paints what the source paints", "statement": "In demo.wasm, paint_str leaves in memory the frame buffer and the cursor that the source leaves, for every string, style, clip rectangle and cursor, changes nothing else except its own frame on the stack, and traps exactly where the source panics: emoji before Latin before hanzi before the replacement character, newlines, and the repeats of an unknown last character included.", "quantifier": "all frame buffers, clips, cursors, styles, strings (also empty), and memories holding them and the tables; all addresses between the stack pointer and the tables; all lengths of the loop", "why_tests_cant": "the loop decodes UTF-8 anew in three places, checks the boundaries of slices inline and copies the clip rectangle by halves; no test runs the binary", "anchors": ["wasm_demo/demo.wasm: function 2", "src/blit.rs: paint_str"]}
{"id": "C74", "title": "The committed demo.wasm shows the poem", "statement": "The init of the module that the bytes of demo.wasm decode to never traps, leaves the frame buffer that the source's init leaves, whatever the frame buffer before, and nothing else changes that a later call could see. After any positive number of calls, wasm.js reads a frame buffer at frame_buf_ptr from which main.js paints every pixel of the poem, the picture that doc/goose_poem.png has.", "quantifier": "all memories with the tables, frame buffers and stack pointers; all numbers of calls of init from the module's own initial memory; all pixels; all previous contents of the canvas", "why_tests_cant": "the whole chain from the bytes of a binary to pixels on a canvas; nothing in the repository runs it", "anchors": ["wasm_demo/demo.wasm: functions 0, 3", "wasm_demo/src/lib.rs: init, frame_buf_ptr", "src/demo.rs: sample_text, goose_poem", "wasm_demo/wasm.js: init, frameBuf", "wasm_demo/main.js: repaint", "doc/goose_poem.png"]}
{"id": "C75", "title": "The page loads demo.wasm, or shows nothing", "statement": "demo.wasm is valid by the rules of WebAssembly, so that engines must accept it, and no function of a valid module, in any memory and with any arguments, comes to a point where no rule applies. A browser that gets the file, with instantiateStreaming or without, ends with a canvas of 336 by 536 that shows every pixel of the poem; one that does not get it, or gets it with the wrong type while streaming, leaves the page as it was, and frameBuf throws. Nothing is ever painted except the frame buffer after an init that returned; if init traps, the canvas is cleared; a module that exports no memory changes neither canvas nor frameBuf.", "quantifier": "all valid modules, functions, arguments and memories; all browsers (streaming or not), answers of the server, engines, pages before; all modules that an engine may make of the file", "why_tests_cant": "no test loads the page, and the fallback for browsers without streaming runs in none of the developer's", "anchors": ["wasm_demo/wasm.js: loadModule, initSharedMemBindings, init, frameBuf", "wasm_demo/main.js: initialize, repaint", "wasm_demo/demo.wasm"]}
{"id": "C76", "title": "A text that has room is shown to its end", "statement": "If no glyph of a text is wider than w and no line higher than h, and the line breaks this takes at most (newlines, and one for each full line of floor((clip width - 1) / (w + 3)) glyphs) leave room in the clip, then paint_str returns, has drawn every glyph of the text, in order, each with all its pixels inside the clip, has drawn nothing else, and the cursor is within that many lines. The condition holds from counts of characters alone with w = 32, for Latin text with w = 18 or 20. The screen holds any 144 characters the fonts know; it does not hold any 145.", "quantifier": "all strings, styles, clips at least 36 wide, cursors, frame buffers, build modes; the general form for all well-formed fonts", "why_tests_cant": "a caller wants to know beforehand whether a message will be cut off; the code gives no sign of it, and a test measures one message at a time", "anchors": ["src/blit.rs: paint_str, newline, xor_char", "src/fonts/*.rs"]}
{"id": "C77", "title": "Glyphs of one width stand on a grid", "statement": "A text without newlines whose glyphs are all w wide and whose fonts are all h high, painted from the left margin of a clip with room for it, fills cells of (w + 3) by (h + 1) in reading order, floor((clip width - 1) / (w + 3)) to a row, and the cursor ends on the row of the last glyph. Unified ideographs of the hanzi font are tiles of 32 by 32: pixel (x, y) of the tile of the i-th character is inverted exactly where the character's bitmap is set, and no pixel outside of the tiles is. On the screen these are 16 rows of nine, at (35 (i mod 9) + 1, 33 floor(i / 9)).", "quantifier": "all strings, styles, clips at least 36 wide, cursors at or left of the margin, frame buffers, build modes; all well-formed fonts for the grid", "why_tests_cant": "positions depend on the cursor left by every glyph before; a test sees sums for a few texts, not that glyph i is where a caller computes it to be", "anchors": ["src/blit.rs: paint_str, newline, xor_char", "src/fonts/hanzi.rs"]}
{"id": "C78", "title": "Moving clip and cursor moves the picture", "statement": "Painting a text in a clip at two places of the screen, the cursor at the same place relative to the clip, inverts the same pixels relative to the clip and moves the cursor by the same distance, whatever the two frame buffers hold and whichever builds paint them.", "quantifier": "all strings, styles, well-formed fonts, clips at least 36 wide, cursors, pairs of places, frame buffers and build modes (also two different ones)", "why_tests_cant": "words of 32 pixels make the code take different paths at every horizontal offset and at every split of a glyph between words; a test tries one place", "anchors": ["src/blit.rs: paint_str, newline, xor_char", "src/cliprect.rs", "src/cursor.rs"]}
{"id": "C79", "title": "Clearing a region and painting in it shows the text and nothing else", "statement": "clear_region followed by paint_str with the same clip returns, unless the build checks shifts and the right edge is a multiple of 32, and shows in the clip exactly the text, dark on light, whatever was there; the rest of the screen is as before, but for 32 columns that are cleared if the right edge is a multiple of 32. Doing it again with another text gives the frame buffer that the other text alone gives.", "quantifier": "all strings, styles, well-formed fonts, on-screen clips at least 36 wide, cursors, frame buffers, build modes", "why_tests_cant": "leftovers of the previous text show only for some pairs of texts and clips", "anchors": ["src/blit.rs: clear_region, paint_str", "src/demo.rs"]}
{"id": "C80", "title": "A clip that ends higher up shows the beginning of the same text", "statement": "Of the glyphs of a text that paint_str shows in a clip, the same call with a clip that ends higher up shows those before the first whose top is below its bottom edge, cut at the edge. If there is none below, it shows of its rows exactly what the larger clip shows; in any case the rows above the cursor it leaves are the same. It does not always show all of its rows of the larger picture: a low line below the edge hides the letters after it.", "quantifier": "all texts of known clusters and newlines, styles, well-formed fonts, clips at least 36 wide, bottom edges, cursors, frame buffers, build modes", "why_tests_cant": "where the text is cut depends on the tops of single glyphs; a test with whole lines does not see it", "anchors": ["src/blit.rs: paint_str, xor_char"]}
{"id": "C81", "title": "The web server of the demo serves demo.wasm so that the page loads it", "statement": "Started in a directory with demo.wasm, webserver.rb answers the page's request with a type that a streaming browser accepts, whatever types WEBrick knows, so that the page gets the demo, streaming or not. Without its entry for wasm a streaming browser shows nothing if WEBrick does not know the type; if the file is missing, the page stays as it was. The entry changes the types of no files but those with suffix wasm, in any case of letters, and those with it before a last suffix that WEBrick does not know.", "quantifier": "all tables of types, directories, error pages, engines, file names, pages before, streaming and other browsers", "why_tests_cant": "needs an old Ruby and a browser with streaming; no test starts the server", "anchors": ["wasm_demo/webserver.rb", "wasm_demo/wasm.js: loadModule"]}
{"id": "C82", "title": "A clip that ends further left shows the same until a line breaks earlier", "statement": "Of the glyphs that paint_str shows in a clip, the same call with a clip that ends further left shows those before the first whose cell (the glyph and two columns after it) does not end left of the new right edge, at the same places, and other glyphs only if there is such a one. If there is none, the frame buffer is the same, and so is the cursor, unless it is lower. That all the ink is left of the new edge is not enough.", "quantifier": "all texts of known clusters and newlines, styles, well-formed fonts, clips and right edges that leave 36 columns, cursors, frame buffers, build modes", "why_tests_cant": "the rule for breaking lines counts padding; a test sees it only at the one width where it differs", "anchors": ["src/blit.rs: paint_str, newline, xor_char"]}
{"id": "C83", "title": "A line of text can be measured by painting it, and then placed", "statement": "If paint_str of a text leaves the cursor on its line, painting it from d columns further right in the same clip inverts the same pixels d columns further right and no others, and leaves the cursor d columns further right, provided that this is left of the clip's right edge; otherwise the text breaks its line. So a caller who paints a text at the left margin of a scratch frame buffer knows from the cursor where to paint it to align it at the right edge.", "quantifier": "all strings, styles, well-formed fonts, clips at least 36 wide, cursors with room for the line below, distances, pairs of frame buffers and build modes", "why_tests_cant": "there is no function that measures text; that the cursor can be used for it depends on every branch that moves it, and on word boundaries at each distance", "anchors": ["src/blit.rs: paint_str, newline, xor_char", "src/cursor.rs"]}
{"id": "C84", "title": "A text can be measured by painting it, and then placed lower", "statement": "If paint_str of a text leaves a cursor whose y and line_height add up to b, painting the text from d rows further down in the same clip inverts the same pixels d rows further down and no others, and leaves the cursor d rows further down, provided that b + d does not exceed the clip's bottom edge. One row more is too many.", "quantifier": "all strings (with newlines and unknown characters), styles, well-formed fonts, clips at least 36 wide, cursors not above the clip, distances, pairs of frame buffers and build modes", "why_tests_cant": "line_height is only documented for line breaks; that it tells where the text ends depends on every glyph of every line", "anchors": ["src/blit.rs: paint_str, newline, xor_char", "src/cursor.rs"]}
