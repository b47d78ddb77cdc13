(** * Model of the web demo: wasm_demo/src/lib.rs, wasm_demo/wasm.js: frameBuf,
    wasm_demo/main.js: initialize, repaint

    Not modelled: loading of the module, the browser's drawing of the canvas.  This is the
    Rust source of the compiled module demo.wasm; the module itself is in DemoFile.v. *)
From Coq Require Import ZArith.
From Verif Require Import Prim Str Geom FontDefs Blit Demo.

(** ** wasm_demo/src/lib.rs *)

(** lib.rs:9: the static frame buffer, before init *)
Definition wasm_fb : frbuf := new_fr_buf.

(** lib.rs:19-23: init *)
Definition wasm_init (m : cfg) (F : fontset) (fb : frbuf) : res frbuf :=
  fb <- sample_text m F fb ;; goose_poem m F fb.

(** ** JavaScript number operations on int32 (ECMAScript ToInt32, <<, >>, >>>, |, &) *)
Definition to_int32 (z : Z) : Z :=
  let u := (z mod 2 ^ 32)%Z in if (2 ^ 31 <=? u)%Z then (u - 2 ^ 32)%Z else u.
Definition js_shl (a n : Z) : Z := to_int32 (Z.shiftl (to_int32 a) n).
Definition js_sar (a n : Z) : Z := Z.shiftr (to_int32 a) n.
Definition js_shr0 (a : Z) : Z := (a mod 2 ^ 32)%Z.
Definition js_or (a b : Z) : Z := Z.lor (to_int32 a) (to_int32 b).
Definition js_and (a b : Z) : Z := Z.land (to_int32 a) (to_int32 b).

(** ** wasm_demo/wasm.js *)

(** WebAssembly memory is little-endian: the bytes of one u32 *)
Definition le_bytes (w : N) : list N :=
  [N.land w 0xff; N.land (N.shiftr w 8) 0xff; N.land (N.shiftr w 16) 0xff; N.land (N.shiftr w 24) 0xff].

(** The bytes of the array FB in memory, from frame_buf_ptr on *)
Definition memory_from_ptr (fb : frbuf) : list N := flat_map le_bytes fb.

(** wasm.js:49-63: frameBuf. The byte view of the module's memory (wasm.js:41) is taken
    once; that the memory is not grown afterwards is assumed (nothing in the crate allocates). *)
Record frame_data := FrameData { fd_bytes : list N; fd_lines : N; fd_words_per_line : N; fd_px_per_line : N }.
Definition frame_buf (fb : frbuf) : frame_data :=
  let lines := 536 in
  let wordsPerLine := 11 in
  let size := lines * wordsPerLine * 4 in
  FrameData (firstn (N.to_nat size) (memory_from_ptr fb)) lines wordsPerLine 336.

(** ** wasm_demo/main.js *)

(** main.js:17-18 *)
Definition screen_height : N := 536.
Definition screen_width : N := 336.

(** ImageData.data: 4 bytes per pixel; a write past the end is ignored *)
Definition set_data (data : list N) (i v : N) : list N :=
  if i <? N.of_nat (length data)
  then firstn (N.to_nat i) data ++ v :: skipn (S (N.to_nat i)) data
  else data.

(** data.bytes[i]; undefined acts as 0 in bit operations *)
Definition byte_at (bytes : list N) (i : N) : Z := Z.of_N (nth (N.to_nat i) bytes 0).

(** A JavaScript for loop with bounds lo <= i < hi *)
Fixpoint loop {S} (n : nat) (i : N) (body : N -> S -> S) (st : S) : S :=
  match n with
  | O => st
  | S n' => loop n' (i + 1) body (body i st)
  end.

(** main.js:37 *)
Definition js_word (b0 b1 b2 b3 : Z) : Z :=
  js_or (js_or (js_or (js_shl (js_shr0 b3) 24) (js_shl b2 16)) (js_shl b1 8)) b0.

(** main.js:39-48: one pixel *)
Definition paint_bit (d : frame_data) (line w : N) (word : Z) (bit : N) (img : list N) : list N :=
  let pxOffset := (line * fd_px_per_line d + w * 32 + bit) * 4 in
  let fbPixel := js_and 1 (js_sar word (Z.of_N bit)) in
  let img := set_data img pxOffset 0x33 in
  let img := set_data img (pxOffset + 1) 0x33 in
  let img := set_data img (pxOffset + 2) 0x33 in
  set_data img (pxOffset + 3) (if (fbPixel =? 1)%Z then 0 else 0xff).

(** main.js:30-50: one word *)
Definition paint_word (d : frame_data) (line w : N) (img : list N) : list N :=
  if w * 32 <? fd_px_per_line d then
    let index := line * fd_words_per_line d * 4 + w * 4 in
    let b0 := byte_at (fd_bytes d) index in
    let b1 := byte_at (fd_bytes d) (index + 1) in
    let b2 := byte_at (fd_bytes d) (index + 2) in
    let b3 := byte_at (fd_bytes d) (index + 3) in
    loop 32 0 (paint_bit d line w (js_word b0 b1 b2 b3)) img
  else img.

(** main.js:24-54: repaint, from the image data got to the image data put *)
Definition repaint (fb : frbuf) (img : list N) : list N :=
  let d := frame_buf fb in
  loop (N.to_nat (fd_lines d)) 0
    (fun line => loop (N.to_nat (fd_words_per_line d)) 0 (fun w => paint_word d line w)) img.
