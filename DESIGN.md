# Formal model of samblenny/blitstr in Rocq (Coq 8.16.1)

## What is modelled

| Coq file | models |
|---|---|
| `Prim.v` | Rust semantics: panics, usize arithmetic with overflow checks on (panic) or off (wrap) for 32/64-bit usize, u32 shifts, array bounds, ranges |
| `Str.v` | `&str` as a list of Unicode scalar values with UTF-8 byte lengths, `char_indices`, slicing with its boundary panic |
| `M3Hash.v` | `src/m3hash.rs` |
| `Geom.v` | `src/framebuffer.rs`, `src/pt.rs`, `src/cliprect.rs`, `src/cursor.rs`, `src/glyphstyle.rs` |
| `FontDefs.v` | `src/fonts.rs` and the code shared by the five generated font files (binary search, limits, block ranges, glyph headers) |
| `Font*.v` | every constant table of `src/fonts/*.rs` (371k data words, 12.6k hashes and offsets), transcribed by `tools/gen_fonts.py` |
| `Blit.v` | `src/blit.rs`: `clear_region`, `newline`, `xor_char`, `paint_str` |
| `BlitSteps.v` | `src/blit.rs` again, assignment by assignment, so that the frame buffer and cursor after a panic are visible |
| `Demo.v` | `src/demo.rs`, `src/main.rs` |
| `Codegen.v` | `codegen/lib/{matrix,murmur3,blockindex,glyphset,ublock,blitpattern,fontspec}.go`, the constants that `templates.go` renders, `codegen/main.go: codegen` |
| `CodegenText.v` | `codegen/lib/charspec.go: EmojiMap, EmojiAliases` (index and alias files as bytes) |
| `Sheets.v`, `Sheet{Small,Regular,Bold,Emoji,Hanzi}.v`, `IndexText.v` | `codegen/config.json` and the input files of the generator (pixels of the five PNG files, text of the index and alias files) |
| `Render.v` | `codegen/lib/templates.go` and the text made in `blockindex.go`, `blitpattern.go`, `glyphset.go`: the bytes of a font file |
| `Template.v`, `TemplateTexts.v` | `codegen/lib/templates.go: renderTemplate`: the part of Go's `text/template` the templates use (actions, range, with, trimming, len, index, printf), the contexts, and the two templates byte for byte |
| `Config.v` | `codegen/lib/config.go`, `codegen/main.go` (arguments, reading of the configuration, the loop, usage text), the part of `encoding/json` used |
| `TextInputs.v`, `Text{Bold,Regular,Small}.v`, `Files.v` | `codegen/config.json`, `src_data/*.txt`, `src_data/*.json`, and three of the font files, byte for byte |
| `Index{Latin,Emoji,Hanzi}.v` | the clusters of the index and alias files, decoded |
| `Screenshots.v` | the pixels of `doc/goose_poem.png` and `doc/short_greeting.png` |
| `Png.v` | `codegen/main.go: readPNGFile`: the part of Go's `image/png`, `compress/zlib` and `compress/flate` it needs |
| `PngFiles.v` | `small.png`, `regular.png`, `bold.png`, `goose_poem.png` and `short_greeting.png`, byte for byte |
| `Editor.v`, `EditorTables.v` | `codegen/config_editor.rb`: the script and its tables, the part of Ruby's JSON library it uses |
| `Wasm.v` | `wasm_demo/main.js: repaint`, `wasm_demo/wasm.js: frameBuf`, `wasm_demo/src/lib.rs: init` |
| `SpecCompiledPage.v` | `wasm_demo/wasm.js: frameBuf` on the memory of the module |
| `Page.v` | `wasm_demo/wasm.js: loadModule, initSharedMemBindings, init, frameBuf`, `wasm_demo/main.js: initialize`: what is on the page after loading |
| `Server.v` | `wasm_demo/webserver.rb`: type, status and body of the answer to a GET of a file in the directory. WEBrick is not in the repository; its file handler and `mime_type` are written from their documented behaviour. Not modelled: conditional and range requests, directories, escapes in paths, other methods, logging, signals |
| `Webasm.v`, `WebasmBin.v` | WebAssembly 1.0, as far as `wasm_demo/demo.wasm` uses it: execution of instructions, and the binary format |
| `WebasmRun.v` | the same execution as an interpreter that says when no rule applies (`run_is_exec`: the runs that end are the same) |
| `SpecValid.v` | validation of WebAssembly 1.0 (chapter 3), for the same modules |
| `DemoCode.v`, `DemoFile.v` | `wasm_demo/demo.wasm`: the instructions of its 35 functions, and its bytes (contents of data segments by the names of the tables they are) |

Specifications are in `Spec*.v`; they use the data types of the model but not its
functions.  Property theorems are in `Props*.v`, each followed by `Print Assumptions`
and an `Example` of a concrete case.  All other files are lemmas.

All numbers are `N`.  A Rust computation is a `res A := Ret a | Panic`; a function that
mutates through `&mut` returns the new value.  Every function that does usize
arithmetic takes a `cfg` (overflow checks on/off, usize width), so each theorem
covers debug and release builds and 32- and 64-bit targets.

`xor_char` and `paint_str` take the font set as an argument.  General theorems hold
for every font set that passes a boolean well-formedness test; the test is
evaluated on the real tables in the kernel.

The model is executable: run on the repository's own test inputs it reproduces the
frame-buffer hashes the repository's tests expect (`Conformance.v`).

## Plan per property

See `MANIFEST.json` for theorem names and status.

* C01, C02, C47, C46: direct case analysis.
* C04-C08: exact pixel characterisation of `clear_region` (`pixel` after =
  `pixel` before OR membership in an explicit rectangle); C05/C06 as stated are
  false of the code and are refuted by witnesses; the exact guard is proved.
* C09-C27: `xor_char`/`paint_str` are shown equal to a frame-buffer-independent
  *plan* (list of word/mask toggles, final cursor) applied to the buffer; XOR
  algebra gives C11, C12, C27; a bit-level lemma turns masks into glyph pixels
  (C13); an inductive layout specification (`Spec.v`) gives C14 and from it C10,
  C15, C16, C18, C22, C24.
* C28: boolean check of the tables evaluated in the kernel, lifted by `forallb_forall`.
* C29, C33: lookup of all index entries evaluated in the kernel.
* C30, C31, C37: Murmur3 steps are bijections on u32 (explicit inverses);
  injectivity reduces collision questions to finitely many inverse hashes.
* C32, C34, C36: induction on tables and strings.
* C35: fold of bijections.
* C38, C40-C44: model of the Go generator; induction.
* C39: C09 plus C04/C11-style independence.
* C45: writes as a fold, last-writer argument.
* C53, C54: induction on lines; white space stripped from both ends of UTF-8 text.
* C55: a boolean check of each font (every glyph record is the trimmed, packed cell of
  the sheet; the tables are the sorted index) is evaluated in the kernel and proved
  to imply that the model of the generator returns the font.
* C56: C55 with C13, and lookups of all clusters in the fonts that are tried first.
* C57: a reader of Rust text (`SpecRust.v`: tokens, then the form of a font file, then
  names looked up) is applied to the rendered text, piece by piece; induction on blocks,
  tables and data.
* C58: the model of the tool is evaluated on `config.json` and the JSON index; C55 and
  C57 give the files.  The bytes of the Latin files are evaluated in the kernel for one
  `IsPrint`; the text depends on `IsPrint` only at the characters of the clusters.
* C59: induction on the list of sets.
* C60: the frame buffer of each demo is compared with the image in the kernel; C39 and
  C45 extend this to all initial states.  This also tests the model: the images were
  made by the real program.
* C61: what JSON.generate writes is read by induction on the value; decoding of the tables
  field by field; C54 for the alias file.  The committed files are compared with the
  script's output in the kernel (they were made by the real script).
* C62: C55 (with the glyph records trimmed as closely as the limits allow) gives the width
  and place of each glyph as a function of its picture; C14 gives the layout.  That the emoji
  font reads no letter and hanzi together with their neighbours, but for the listed
  lookalikes, is a search through all triples in the kernel (`HashBits.v`: hash states as
  lists of bits, the hash run from both ends, the two sets met in a trie).

* C63: induction on the items of a text, from C62.
* C64: both directions by induction: on the bits of the stream for canonical Huffman codes
  (counts per length give each symbol its code) and blocks, on the chunks, on the rows with
  their filters; the check value is the remainder of a long division (`SpecCrc.v`), and injective in any 32 bits.  Stored blocks give a
  file of every image.
* C65: each file is decoded in the kernel and compared with the sheet or screenshot; C58 and C60
  for the rest.
* C66: the two templates are lexed and parsed in the kernel; their execution is followed
  symbolically for every glyph set with distinct blocks (which generation gives).
* C67: a reader of comment lines (`SpecLabel.v`) is run over the text part by part; the escapes of
  `%q` read back by cases on the codepoint's range.
* C68: erasing the steps of `BlitSteps.v` gives `Blit.v`; the steps are then followed to the
  first assignment outside the frame buffer.
* C69: the bytes up to the data section are decoded in the kernel; the data by the lengths of the tables.
* C70: rules for postconditions of instructions (`WebasmLogic.v`), invariants for the two loops;
  execution is deterministic, so the postcondition holds of every run.
* C71: the same rules; reading a character is proved once per length of its encoding, the search
  once for all tables, and the 24 functions are instances.
* C72: the 56 nested blocks are a list of continuations (`CompiledChar.v`); each way through the tests on the
  first character ends in the arm the source takes, at the join before the glyph is read, or in the error exit;
  from the join on, `CompiledPaint.v` follows header, clipping, rows and cursor.
* C73: induction on the iterations of the loop, with C72 for each call; the three decoders of characters are
  followed once per length of the encoding (`CompiledNext.v`), the checks of slices never fail.
* C74: C70 and C73 for the calls of init; the rest is C45 and C65 of the frame buffer found in memory.
  Every function of the module that can be reached without a panic is covered by C69-C74.
* C75: a checker of types, sound for the typing rules of `SpecValid.v`, run on the code section; type soundness
  (`ValidSound.v`) by induction on the depth of a run; the page from C74 with one call of init.
* C76: induction on the layout with the number of glyphs a line is sure to hold (`RoomProofs.v`); widths and heights of
  the fonts from the checks of the tables.  The 145 of the refutation are a layout evaluated in the kernel.
* C77: the same induction with row and column of the next cell (`GridProofs.v`); the headers of the hanzi font are all
  32 by 32, evaluated in the kernel.
* C78: the layout of C14 commutes with translation (`MoveProofs.v`).
* C79: C05 and C14 composed, pixel by pixel; frame buffers with equal pixels are equal.
* C80: the layout in the smaller clip is a prefix of the other (`CropProofs.v`), and what is left out is below its cursor.
* C81: by cases on the suffixes; then C75 (`PropsServer.v`).
* C82: the two layouts agree until the first glyph that breaks the line in one only (`ReachProofs.v`).
* C83: while the line does not change, the layout moves with the cursor (`AlignProofs.v`).
* C84: the layout moves with the cursor; the row below the cursor's line bounds all glyphs (`LowerProofs.v`).
* C09, C14, C18, C22, C24 for clips narrower than 36: the painting loop is proved equal to a
  layout with retries (`SpecNarrow.v`), including when it panics; the statements for wide
  clips follow from it.

## Tests of the theorems

`seeded/LOG.jsonl` has one line for each wrong program tried: the definition edited,
the edit, what it breaks, and the theorems whose proofs failed.  `tools/mutate.py`
applies an edit to a copy, compiles what depends on it, admits each lemma whose proof
fails, and takes as failed the theorems whose assumptions then list an admitted lemma.
A theorem can fail for an equivalent program too, when a lemma about the edited
function is proved by following its text; those lines say so.

## Trusted base

* The kernel of Coq 8.16.1, with its virtual machine (`vm_compute` and
  `vm_cast_no_check` are used for checks of tables; `coqchk` repeats them without it).
* `Print Assumptions` prints "Closed under the global context" for every theorem in
  `Props*.v`: no axioms, neither own nor of the standard library.  (`coqchk` lists
  seven entries of `Coq.ssr.ssrunder`, which the standard library loads and no
  theorem uses.)
* That the definitions in the files above say what the code in `/repo` does.  They
  were written by reading; each cites file and lines.  `Conformance.v` runs the
  expected values of the repository's own tests (hashes of keys, hashes of whole
  frame buffers after the demos, lookups) on the model.
* The transcriptions by `tools/gen_fonts.py`, `tools/gen_index.py`,
  `tools/gen_demo.py`, `tools/gen_sheets.py`, `tools/gen_shots.py`,
  `tools/gen_editor.py`, `tools/gen_png.py`, `tools/gen_template.py`, `tools/gen_wasm.py` and `tools/gen_text.py` (constant tables,
  string literals, index files, pixels, texts, bytes of PNG files).  C65 checks the pixels of the
  Latin sheets and of the screenshots against the bytes of the files.  C55 and C58 check most of them against
  each other: sheets and index text on one side, font tables, decoded index lists and
  text of font files on the other.  The texts of `emoji.rs` and `hanzi.rs` were compared
  with the model's once, outside of the build (they are too large to keep); they are
  equal if `IsPrint` is false exactly at U+200D, U+3000, U+E50A and from U+E0000.
* `Webasm.v` and `WebasmBin.v` as a reading of the WebAssembly specification.  That the contents of
  the data segments of `demo.wasm` are the tables named in `DemoFile.v` is compared by
  `tools/gen_wasm.py`; the code is decoded from the bytes in the kernel (C69).
* `SpecRust.v` as a reading of the Rust text of a font file.

### Simplifications

* Rust: a panic has no message; in `Blit.v` it has no partial effects, in `BlitSteps.v` it keeps
  the frame buffer and cursor as the assignments before it left them (the demos use `Blit.v`).  `u8` fields read from glyph headers are numbers below 256 because
  they are masked.  The fuel of loops is proved sufficient.
* Strings are lists of codepoints; painting does not look inside UTF-8 bytes.
  Theorems about real fonts that need it say that codepoints are Unicode scalar values.
* The order of the arms of Rust's `match` on block ranges is the order of the list of
  blocks.  Slices of `&str` at a byte that is no boundary panic, as in Rust.
* Go: `int` is Z (no overflow: all values are sizes of small images), `uint32` is N
  with explicit reduction, maps are association lists (the only iteration over a map
  in the code, `IndexKeys`, sorts the keys), `sort.Slice` is insertion sort (the keys
  of committed indexes are distinct; where they are not, Go's order is unspecified and
  theorems assume `no_collisions` or hold for both orders).
* `sheet_image` gives red 0 for black pixels and 0xFFFF for others; the sheets are
  one-bit images.

### Not modelled

* PNG images that are interlaced, have 16 bits per sample or a tRNS chunk (rejected by
  the model of the decoder); what Go reports about bytes after the end of the zlib
  stream.  The decoder is modelled after the formats' specifications (`SpecDeflate.v`,
  `SpecPng.v`), not line by line after Go's library.  The two larger sheets are
  transcribed as pixels only, as decoding them in `coqchk` would take too long; C65
  speaks of any files that have these pixels.
* The file system (a run is given a function from names to contents
  and returns the writes; `codegen` ignores errors of `ioutil.WriteFile`).
* `text/template` beyond what the templates use: if, else, pipelines, comments, nested templates,
  methods with arguments, numbers and escapes in actions, printing of structs are `Panic` in
  the model.
* `encoding/json` beyond what the configuration uses: numbers with fractions or
  exponents are rejected by the model for all fields (Go rejects them for integers),
  keys are matched with ASCII case folding, errors of any kind are one `Panic`.
* `strconv.IsPrint` is a parameter of the model.
* Debug output (`enableDebug` is false).
* Of Ruby: `unicode_normalize` is a parameter (C61 takes the decompositions of the Latin
  clusters from Unicode data, as Python has them); `to_i(16)` only for texts that start
  with a digit; errors of files; text on the standard error.
* The browser's placement of the canvas on the page (C60 gives the offset of the canvas
  in each image) and the colour profile of the screenshots.
* `wasm_demo/index.html` and `wasm_demo/Makefile`: that the page loads `main.js` and has the
  canvas is taken as given, as is that browsers accept the types of the scripts.
* Memory safety of the wasm export of a raw pointer, the browser's canvas, timing.
