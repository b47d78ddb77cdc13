p("C48","ASCII text is painted one glyph per character, each its own",
  "For printable ASCII text with newlines that fits the clip, the painted glyphs are, in order, one per character other than newline, all from the style's Latin font, and each is the glyph record at the character's position in the Latin index list.",
  "all ASCII strings, styles, clips, cursors","all strings over 96 characters; a hash collision of any two or three adjacent characters with an emoji would break it",
  ["src/blit.rs: paint_str, xor_char", "src/fonts/{emoji,small,regular,bold}.rs", "codegen/src_data/latin_index.json"])
p("C49","Documented order of packed pixels",
  "The comments say that pixels are packed left to right, then top to bottom, with the top-left pixel in the most significant bit of the first word, and zeros after the last pixel.",
  "all pixel matrices","a document can only be compared with code by reading; tests of the fonts use hashes of painted frames and pass with either order",
  ["codegen/lib/matrix.go:30-34", "codegen/lib/templates.go:141-146", "codegen/lib/matrix.go: convertToPattern"])
p("C50","Cluster names are read back",
  "For every non-empty sequence of Unicode scalar values, StringFromHexGC of its hexadecimal codepoints joined by '-' returns that sequence.",
  "all clusters","unboundedly many clusters; about 1.1 million values per position",
  ["codegen/lib/charspec.go: StringFromHexGC"])
p("C51","The generated unit test finds every hash collision",
  "test_hashes_unique_and_sorted, which the generator writes into each font file, passes exactly when no two indexed clusters or aliases of a Unicode block have the same hash.",
  "all font specifications, sheets, index and alias lists","the test is run on the committed tables only; that it is sufficient for every other index or seed needs a proof about the generator",
  ["codegen/lib/templates.go:153-165", "codegen/lib/blockindex.go: Insert", "codegen/lib/glyphset.go"])
p("C52","Generation succeeds on valid input",
  "If every listed cell is on the sheet and has ink (or its trim limits leave something), all names parse, all clusters start in a known block and every alias has a canonical cluster in the index, the generator does not panic.",
  "all font specifications, sheets, index and alias lists","unbounded inputs; panics are in several places (Trim, Block, FindDataOffset, NewBlitPattern)",
  ["codegen/main.go: codegen", "codegen/lib/*.go"])
p("C53","Row-major index files are read line by line",
  "EmojiMap gives the n-th name of an index file row n / columns and column n mod columns; the names are those of the lines in order, and comments, white space around names, and lines without a name change nothing.",
  "all texts; all numbers of columns","unbounded files with any mixture of comments, blank lines and Unicode white space",
  ["codegen/lib/charspec.go: EmojiMap"])
p("C54","Alias files are read line by line",
  "EmojiAliases returns, in order, the pair of names of every line that has two names separated by white space.",
  "all texts","unbounded files; the committed files use single spaces only",
  ["codegen/lib/charspec.go: EmojiAliases"])
p("C55","The committed fonts are the committed pictures",
  "Running the generator on the committed sprite sheets, index files and alias files gives exactly the committed fonts, and every cluster of an index (and every alias) is found with the glyph that is its picture on the sheet, trimmed to its ink.",
  "all fonts, all clusters, all images that agree with the sheet inside its bounds","about 12000 glyphs with 1024 pixels each; running the generator shows equal files, not that the files mean the pictures",
  ["codegen/main.go", "codegen/config.json", "codegen/lib/*.go", "codegen/src_data/*", "src/fonts/*.rs"])
p("C56","Painting a cluster shows its picture",
  "Painting a string that is one indexed cluster or alias inverts, inside the clip, exactly the black pixels of its picture on the sprite sheet of its font (Latin clusters with the font of the style), with the top of the picture at the cursor.",
  "all clusters of all fonts, styles, frame buffers, clips, cursors, build modes","thousands of clusters at every position on every background",
  ["src/blit.rs: paint_str, xor_char", "src/fonts/*.rs", "codegen/src_data/*"])
p("C57","A generated file means the generated font",
  "Whenever the generator renders a font file, the text, read as Rust source, has exactly the height, seed, match arms with limits, hash and offset tables, and data of the font computed from the sheet, index and aliases.",
  "all font specifications, legal notices, sheets, index and alias lists","unboundedly many files; compiling one file shows that it is Rust, not that its tables are the computed ones; comments in the file contain characters of the index",
  ["codegen/lib/templates.go", "codegen/lib/blitpattern.go: ConvertPatternToRust", "codegen/lib/blockindex.go", "codegen/lib/glyphset.go", "codegen/main.go:34-43"])
p("C58","The tool writes the committed fonts",
  "Run with --write on the committed configuration, index, alias and notice files and sheets, the tool finishes, writes the five font files in the order of config.json, and each reads as the committed font; bold.rs, regular.rs and small.rs are the committed files byte for byte.",
  "all implementations of strconv.IsPrint that hold the Latin characters to be printable; all images that agree with the sheets inside their bounds","one run can be compared with git diff, but depends on the Go version's Unicode tables and on reading pixels outside of the image",
  ["codegen/main.go", "codegen/config.json", "codegen/lib/config.go", "codegen/src_data/*", "src/fonts/bold.rs", "src/fonts/regular.rs", "src/fonts/small.rs"])
p("C59","What a run of the tool writes",
  "The tool writes nothing unless its only argument is --write, and nothing if the configuration or any index, alias or notice file cannot be read; otherwise it writes the files of the sets in order up to the first set that fails; every written file is the file of its own set only.",
  "all argument lists, file contents, images","all combinations of missing and malformed files; failure in the middle of a run",
  ["codegen/main.go", "codegen/lib/config.go"])
p("C60","The README's screenshots are what the code shows",
  "Every pixel of doc/goose_poem.png is the pixel the web demo's page shows after init, and every pixel of doc/short_greeting.png is the pixel it shows after short_greeting, whatever was in the frame buffer and on the canvas before.",
  "all frame buffers, canvases, build modes; all pixels of the images","the images are not compared with anything in the repository; tests fix the initial frame buffer",
  ["README.md", "doc/goose_poem.png", "doc/short_greeting.png", "src/demo.rs", "wasm_demo/main.js", "wasm_demo/src/lib.rs"])
p("C61","The configuration script writes what the generator reads",
  "Run with the answer y or Y, config_editor.rb writes config.json, latin_index.json, latin_aliases.txt and icon_index.json exactly as committed; with any other answer it writes nothing. For all tables, the Go tool reads from the written files exactly the sets, rows and, for each cluster that differs from its canonical decomposition, the alias pair.",
  "all answers, tables, JSON values, decomposition functions","unboundedly many tables and strings; the script and the tool are in different languages and share no test",
  ["codegen/config_editor.rb", "codegen/config.json", "codegen/src_data/latin_index.json", "codegen/src_data/latin_aliases.txt", "codegen/src_data/icon_index.json", "codegen/lib/config.go", "codegen/lib/charspec.go"])
p("C62","Painting a text shows its pictures side by side",
  "Painting a text of letters (composed or decomposed), hanzi and newlines inverts exactly the pixels where an odd number of the pictures of its clusters have ink, each picture trimmed to its inked columns and set beside the one before, with wrapping and line heights as documented; the cursor ends where the setting ends.",
  "all texts of the Latin and hanzi indexes, of any length; all styles, clips at least 36 wide, cursors, frame buffers, build modes",
  "hash matching can read characters of neighbouring clusters together: 43 triples of ordinary characters among 95 x 8591 x 8591 do, and tests contain none of them; unbounded texts",
  ["src/blit.rs: paint_str, xor_char, newline", "src/fonts/*.rs", "codegen/src_data/*"])
p("C63","Lines of text are as the README says",
  "Painted text is in lines: a line is as high as its tallest glyph (24 for Small, 30 for Regular and Bold, 32 for emoji and hanzi), no ink is outside those rows, lines do not touch, and no glyph reaches the right edge of the clip. A newline moves the cursor to the left edge of the clip and down by the height of the line; a glyph is moved to the next line exactly when it would be clipped.",
  "all texts read as their clusters, all styles, clips at least 36 wide, cursors, frame buffers, build modes",
  "documented arithmetic, off by one in two places; unbounded texts and positions",
  ["README.md: Usage", "src/blit.rs: paint_str, xor_char, newline"])
p("C64","Images are read from PNG files",
  "The generator reads an image from a file exactly if the file is a PNG file of that image (any chunking, any deflate encoding, any filters), every image has such a file, the colours of its pixels and the black ones among them are as the format says, and a file in which one byte of the type, data or check value of a chunk is wrong, or up to 32 consecutive bits of type and data, is rejected with a panic.",
  "all files, images, compressed streams","unboundedly many files and encodings; damage at every position",
  ["codegen/main.go: readPNGFile"])
p("C65","The bytes of the image files are what the fonts and demos show",
  "The committed bytes of bold.png, regular.png and small.png decode to the black pixels from which the fonts are cut, a run that reads them writes the committed font files, and the bytes of the two screenshots decode to the pictures of what the demos show.",
  "all file systems containing these files; all frame buffers, canvases, build modes","the generated files are compared with the sheets by nobody but the generator; the screenshots are compared with nothing",
  ["codegen/src_data/bold.png", "codegen/src_data/regular.png", "codegen/src_data/small.png", "doc/goose_poem.png", "doc/short_greeting.png", "codegen/main.go"])
p("C66","The generated texts are the templates, rendered",
  "Every font file and usage message is the text of the template in templates.go, read and executed by the rules of text/template on the computed context, and rendering a generated glyph set does not fail; for all templates of texts and fields, rendering puts the values in place of the actions, removes white space where asked, and repeats bodies for each element.",
  "all glyph sets, fonts, notices, argument lists; all texts, fields, elements","unboundedly many contexts; an error in a template is a panic only in the runs that reach it",
  ["codegen/lib/templates.go", "codegen/lib/blockindex.go", "codegen/lib/glyphset.go", "codegen/lib/ublock.go", "codegen/main.go"])
p("C67","The comments of a font file name what stands beside them",
  "Every label of a cluster (quoted with escapes, followed by codepoints if there are several) reads back as that cluster, so labels are distinct; in a generated file the comment above each glyph's words gives its offset, its name in the index and its cluster, in the order of the index; the rows of the tables are, block by block, the hash and then the offset of each glyph and alias beside a label that reads as its cluster, an alias at the offset of a glyph.",
  "all clusters, whatever is printable; all sheets, indexes, alias lists, font names of one line, notices without rows","labels are comments, so no compiler or test looks at them; unboundedly many clusters",
  ["codegen/lib/blockindex.go", "codegen/lib/glyphset.go", "codegen/lib/blitpattern.go", "codegen/lib/templates.go"])
p("C68","What a panic leaves behind",
  "paint_str, returning or panicking, has inverted exactly the on-screen pixels of the glyphs up to and including the first that reaches beyond the last word of the frame buffer, with the cursor at that glyph; clear_region, when it panics, has cleared exactly the top line of the rectangle. Painting the same again restores the frame buffer even after a panic; what is inverted does not depend on the contents. A newline that takes the line past the end of usize panics, in builds that check, with the cursor at the left margin of the old line.",
  "all strings, styles, clips that xor_char accepts, cursors, frame buffers, build modes; the last two for all clips and fonts",
  "a test sees a panic, not the frame buffer that a caller who catches it (or the wasm host, whose memory survives) goes on with",
  ["src/blit.rs: clear_region, paint_str, newline, xor_char"])
p("C69","The compiled demo is the module the page expects",
  "The bytes of demo.wasm are a WebAssembly module without imports that exports memory, init and frame_buf_ptr; before init its memory holds every table of the fonts and every text of the demos at the addresses the code uses, and a frame buffer as new_fr_buf makes it; frame_buf_ptr returns the address of that frame buffer and changes nothing.",
  "all bytes of the file, all entries of the tables, all memories for frame_buf_ptr","the committed binary is rebuilt by hand and compared with the sources by nobody",
  ["wasm_demo/demo.wasm", "wasm_demo/wasm.js: loadModule, frameBuf", "wasm_demo/src/lib.rs: frame_buf_ptr, FB", "src/fonts/*.rs", "src/demo.rs"])
p("C70","Compiled clear_region clears what the source says",
  "clear_region as compiled in demo.wasm, run by the rules of WebAssembly on any memory that holds a frame buffer and a clip rectangle, returns without a trap, leaves the frame buffer that the source's clear_region leaves, and changes no other byte of memory and no global.",
  "all memories, frame buffers, clip rectangles with any 32-bit corners, addresses of the rectangle","optimised code with its own loop structure and address arithmetic; no test runs the committed binary",
  ["wasm_demo/demo.wasm: function 1", "src/blit.rs: clear_region"])
p("C71","Compiled hashing and lookup find what the source finds",
  "In demo.wasm, grapheme_cluster leaves the hash and byte count of the source for every UTF-8 string; each of the 24 compiled find functions answers as its find function in the source on the tables of its block, writing only its answer and its frame; nth_word returns the word of the source and traps exactly where the source panics.",
  "all memories holding the tables, all strings, limits, addresses, stack pointers; all offsets and word numbers","the hash decides which glyph is shown; optimised UTF-8 decoding and binary search in a binary that no test runs",
  ["wasm_demo/demo.wasm: functions 4-26, 29-32", "src/m3hash.rs: grapheme_cluster", "src/fonts.rs: murmur3, nth_word", "src/fonts/*.rs: find_*"])
p("C72","Compiled xor_char draws what the source draws",
  "In demo.wasm, xor_char changes the frame buffer and the cursor in memory exactly as the source does, for each of the five glyph sets, writes the answer of the source (the bytes used, or that there is no glyph), leaves the rest of memory except its frame as it was, and traps exactly where the source panics.",
  "all frame buffers, clips, cursors, non-empty strings, glyph sets, and memories holding them and the tables; all addresses between the stack pointer and the tables","rustc merged five lookups, the newline, the row loop and the panics into one function of 56 nested blocks; no test runs the binary",
  ["wasm_demo/demo.wasm: function 27", "src/blit.rs: xor_char, newline", "src/fonts/*.rs: get_blit_pattern_offset"])
p("C73","Compiled paint_str paints what the source paints",
  "In demo.wasm, paint_str leaves in memory the frame buffer and the cursor that the source leaves, for every string, style, clip rectangle and cursor, changes nothing else except its own frame on the stack, and traps exactly where the source panics: emoji before Latin before hanzi before the replacement character, newlines, and the repeats of an unknown last character included.",
  "all frame buffers, clips, cursors, styles, strings (also empty), and memories holding them and the tables; all addresses between the stack pointer and the tables; all lengths of the loop","the loop decodes UTF-8 anew in three places, checks the boundaries of slices inline and copies the clip rectangle by halves; no test runs the binary",
  ["wasm_demo/demo.wasm: function 2", "src/blit.rs: paint_str"])
p("C74","The committed demo.wasm shows the poem",
  "The init of the module that the bytes of demo.wasm decode to never traps, leaves the frame buffer that the source's init leaves, whatever the frame buffer before, and nothing else changes that a later call could see. After any positive number of calls, wasm.js reads a frame buffer at frame_buf_ptr from which main.js paints every pixel of the poem, the picture that doc/goose_poem.png has.",
  "all memories with the tables, frame buffers and stack pointers; all numbers of calls of init from the module's own initial memory; all pixels; all previous contents of the canvas","the whole chain from the bytes of a binary to pixels on a canvas; nothing in the repository runs it",
  ["wasm_demo/demo.wasm: functions 0, 3", "wasm_demo/src/lib.rs: init, frame_buf_ptr", "src/demo.rs: sample_text, goose_poem", "wasm_demo/wasm.js: init, frameBuf", "wasm_demo/main.js: repaint", "doc/goose_poem.png"])
p("C75","The page loads demo.wasm, or shows nothing",
  "demo.wasm is valid by the rules of WebAssembly, so that engines must accept it, and no function of a valid module, in any memory and with any arguments, comes to a point where no rule applies. A browser that gets the file, with instantiateStreaming or without, ends with a canvas of 336 by 536 that shows every pixel of the poem; one that does not get it, or gets it with the wrong type while streaming, leaves the page as it was, and frameBuf throws. Nothing is ever painted except the frame buffer after an init that returned; if init traps, the canvas is cleared; a module that exports no memory changes neither canvas nor frameBuf.",
  "all valid modules, functions, arguments and memories; all browsers (streaming or not), answers of the server, engines, pages before; all modules that an engine may make of the file","no test loads the page, and the fallback for browsers without streaming runs in none of the developer's",
  ["wasm_demo/wasm.js: loadModule, initSharedMemBindings, init, frameBuf", "wasm_demo/main.js: initialize, repaint", "wasm_demo/demo.wasm"])
p("C76","A text that has room is shown to its end",
  "If no glyph of a text is wider than w and no line higher than h, and the line breaks this takes at most (newlines, and one for each full line of floor((clip width - 1) / (w + 3)) glyphs) leave room in the clip, then paint_str returns, has drawn every glyph of the text, in order, each with all its pixels inside the clip, has drawn nothing else, and the cursor is within that many lines. The condition holds from counts of characters alone with w = 32, for Latin text with w = 18 or 20. The screen holds any 144 characters the fonts know; it does not hold any 145.",
  "all strings, styles, clips at least 36 wide, cursors, frame buffers, build modes; the general form for all well-formed fonts","a caller wants to know beforehand whether a message will be cut off; the code gives no sign of it, and a test measures one message at a time",
  ["src/blit.rs: paint_str, newline, xor_char", "src/fonts/*.rs"])
p("C77","Glyphs of one width stand on a grid",
  "A text without newlines whose glyphs are all w wide and whose fonts are all h high, painted from the left margin of a clip with room for it, fills cells of (w + 3) by (h + 1) in reading order, floor((clip width - 1) / (w + 3)) to a row, and the cursor ends on the row of the last glyph. Unified ideographs of the hanzi font are tiles of 32 by 32: pixel (x, y) of the tile of the i-th character is inverted exactly where the character's bitmap is set, and no pixel outside of the tiles is. On the screen these are 16 rows of nine, at (35 (i mod 9) + 1, 33 floor(i / 9)).",
  "all strings, styles, clips at least 36 wide, cursors at or left of the margin, frame buffers, build modes; all well-formed fonts for the grid","positions depend on the cursor left by every glyph before; a test sees sums for a few texts, not that glyph i is where a caller computes it to be",
  ["src/blit.rs: paint_str, newline, xor_char", "src/fonts/hanzi.rs"])
p("C78","Moving clip and cursor moves the picture",
  "Painting a text in a clip at two places of the screen, the cursor at the same place relative to the clip, inverts the same pixels relative to the clip and moves the cursor by the same distance, whatever the two frame buffers hold and whichever builds paint them.",
  "all strings, styles, well-formed fonts, clips at least 36 wide, cursors, pairs of places, frame buffers and build modes (also two different ones)","words of 32 pixels make the code take different paths at every horizontal offset and at every split of a glyph between words; a test tries one place",
  ["src/blit.rs: paint_str, newline, xor_char", "src/cliprect.rs", "src/cursor.rs"])
p("C79","Clearing a region and painting in it shows the text and nothing else",
  "clear_region followed by paint_str with the same clip returns, unless the build checks shifts and the right edge is a multiple of 32, and shows in the clip exactly the text, dark on light, whatever was there; the rest of the screen is as before, but for 32 columns that are cleared if the right edge is a multiple of 32. Doing it again with another text gives the frame buffer that the other text alone gives.",
  "all strings, styles, well-formed fonts, on-screen clips at least 36 wide, cursors, frame buffers, build modes","leftovers of the previous text show only for some pairs of texts and clips",
  ["src/blit.rs: clear_region, paint_str", "src/demo.rs"])
p("C80","A clip that ends higher up shows the beginning of the same text",
  "Of the glyphs of a text that paint_str shows in a clip, the same call with a clip that ends higher up shows those before the first whose top is below its bottom edge, cut at the edge. If there is none below, it shows of its rows exactly what the larger clip shows; in any case the rows above the cursor it leaves are the same. It does not always show all of its rows of the larger picture: a low line below the edge hides the letters after it.",
  "all texts of known clusters and newlines, styles, well-formed fonts, clips at least 36 wide, bottom edges, cursors, frame buffers, build modes","where the text is cut depends on the tops of single glyphs; a test with whole lines does not see it",
  ["src/blit.rs: paint_str, xor_char"])
p("C81","The web server of the demo serves demo.wasm so that the page loads it",
  "Started in a directory with demo.wasm, webserver.rb answers the page's request with a type that a streaming browser accepts, whatever types WEBrick knows, so that the page gets the demo, streaming or not. Without its entry for wasm a streaming browser shows nothing if WEBrick does not know the type; if the file is missing, the page stays as it was. The entry changes the types of no files but those with suffix wasm, in any case of letters, and those with it before a last suffix that WEBrick does not know.",
  "all tables of types, directories, error pages, engines, file names, pages before, streaming and other browsers","needs an old Ruby and a browser with streaming; no test starts the server",
  ["wasm_demo/webserver.rb", "wasm_demo/wasm.js: loadModule"])
p("C82","A clip that ends further left shows the same until a line breaks earlier",
  "Of the glyphs that paint_str shows in a clip, the same call with a clip that ends further left shows those before the first whose cell (the glyph and two columns after it) does not end left of the new right edge, at the same places, and other glyphs only if there is such a one. If there is none, the frame buffer is the same, and so is the cursor, unless it is lower. That all the ink is left of the new edge is not enough.",
  "all texts of known clusters and newlines, styles, well-formed fonts, clips and right edges that leave 36 columns, cursors, frame buffers, build modes","the rule for breaking lines counts padding; a test sees it only at the one width where it differs",
  ["src/blit.rs: paint_str, newline, xor_char"])
p("C83","A line of text can be measured by painting it, and then placed",
  "If paint_str of a text leaves the cursor on its line, painting it from d columns further right in the same clip inverts the same pixels d columns further right and no others, and leaves the cursor d columns further right, provided that this is left of the clip's right edge; otherwise the text breaks its line. So a caller who paints a text at the left margin of a scratch frame buffer knows from the cursor where to paint it to align it at the right edge.",
  "all strings, styles, well-formed fonts, clips at least 36 wide, cursors with room for the line below, distances, pairs of frame buffers and build modes","there is no function that measures text; that the cursor can be used for it depends on every branch that moves it, and on word boundaries at each distance",
  ["src/blit.rs: paint_str, newline, xor_char", "src/cursor.rs"])
p("C84","A text can be measured by painting it, and then placed lower",
  "If paint_str of a text leaves a cursor whose y and line_height add up to b, painting the text from d rows further down in the same clip inverts the same pixels d rows further down and no others, and leaves the cursor d rows further down, provided that b + d does not exceed the clip's bottom edge. One row more is too many.",
  "all strings (with newlines and unknown characters), styles, well-formed fonts, clips at least 36 wide, cursors not above the clip, distances, pairs of frame buffers and build modes","line_height is only documented for line breaks; that it tells where the text ends depends on every glyph of every line",
  ["src/blit.rs: paint_str, newline, xor_char", "src/cursor.rs"])
