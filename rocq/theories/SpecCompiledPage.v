(** * The page: demo.wasm in the hands of wasm.js *)
From Verif Require Import Prim Webasm WebasmBin Wasm.

(** What runs: the functions of the module with the memory it asks for *)
Definition module_env (w : wmodule) : env := Env (functions w) (memory_size w).

(** A function without arguments and results called [n] times, none of the calls trapping *)
Inductive called (M : env) (f : nat) : nat -> list N -> memory -> list N -> memory -> Prop :=
| Called0 g m : called M f 0 g m g m
| CalledS n g m g1 m1 g2 m2 : invoke M f [] g m (Some ([], g1, m1)) -> called M f n g1 m1 g2 m2 -> called M f (S n) g m g2 m2.

(** wasm_demo/wasm.js:49-63: frameBuf, on the memory of the module, with what frame_buf_ptr returned *)
Definition js_frame_buf (m : memory) (start : N) : frame_data :=
  let lines := 536 in
  let wordsPerLine := 11 in
  let pxPerLine := 336 in
  let size := lines * wordsPerLine * 4 in
  FrameData (map (fun i => m (start + N.of_nat i)) (seq 0 (N.to_nat size))) lines wordsPerLine pxPerLine.
