(** * Model of the loading of the page: wasm_demo/wasm.js, wasm_demo/main.js

    The promises of loadModule are one after another, and nothing else runs on the page (index.html has this one
    script), so loading is one relation from the page before to the page after. *)
From Coq Require Import ZArith.
From Verif Require Import Prim Webasm WebasmBin Wasm SpecCompiledPage.

(** What the browser brings: whether WebAssembly has instantiateStreaming, what fetch gives (nothing if it fails;
    whether the status is ok and the type application/wasm; the body), which modules the engine makes of which bytes *)
Record browser := Browser { b_streaming : bool; b_fetch : option (bool * list N); b_engine : list N -> option wmodule }.

(** wasm.js:8-28: loadModule up to the module; None is a promise that is rejected.  instantiateStreaming wants the
    status and the type (line 17), the fallback takes any answer (lines 22-24).  The import object does not matter:
    the modules of [decode] import nothing *)
Definition load_module (b : browser) : option wmodule :=
  match b_fetch b with
  | None => None
  | Some (as_wasm, body) => if b_streaming b && negb as_wasm then None else b_engine b body
  end.

(** wasm.js:31-33 and the canvas: the instance is the module, its globals and its memory *)
Record page := Page {
  p_ready : bool; p_exports : option (wmodule * list N * memory); p_width : N; p_height : N; p_image : list N }.
(** index.html: a canvas without attributes is 300 by 150 *)
Definition fresh_page : page := Page false None 300 150 (repeat 0 (N.to_nat (4 * 300 * 150))).

(** Names of the exports *)
Definition name_memory : list N := [109; 101; 109; 111; 114; 121].
Definition name_init : list N := [105; 110; 105; 116].
Definition name_ptr : list N := [102; 114; 97; 109; 101; 95; 98; 117; 102; 95; 112; 116; 114].

(** wasm.js:39-43: initSharedMemBindings; None is a TypeError, without exports.memory *)
Definition bind (w : wmodule) (p : page) : page * bool :=
  let e := Some (w, globals_at_start w, memory_at_start w) in
  match exported w name_memory with
  | Some (2, _) => (Page true e (p_width p) (p_height p) (p_image p), true)
  | _ => (Page (p_ready p) e (p_width p) (p_height p) (p_image p), false)
  end.

(** main.js:17-18: setting the size of a canvas clears it *)
Definition blank : list N := repeat 0 (N.to_nat (4 * screen_width * screen_height)).
Definition resize (p : page) : page := Page (p_ready p) (p_exports p) screen_width screen_height blank.

(** A call of an exported function without parameters: its results, globals and memory; None is an exception (no such
    function, or a trap) *)
Inductive calls (w : wmodule) (name : list N) (g : list N) (m : memory) : option (list N * list N * memory) -> Prop :=
| Calls_none : (forall f, exported w name <> Some (0, f)) -> calls w name g m None
| Calls_some f r : exported w name = Some (0, f) -> invoke (module_env w) f [] g m r -> calls w name g m r.

(** main.js:24-54: repaint, from what frameBuf returned *)
Definition repaint_data (d : frame_data) (img : list N) : list N :=
  loop (N.to_nat (fd_lines d)) 0
    (fun line => loop (N.to_nat (fd_words_per_line d)) 0 (fun w => paint_word d line w)) img.
Definition with_instance (p : page) (w : wmodule) (g : list N) (m : memory) : page :=
  Page (p_ready p) (Some (w, g, m)) (p_width p) (p_height p) (p_image p).
Definition with_image (p : page) (img : list N) : page := Page (p_ready p) (p_exports p) (p_width p) (p_height p) img.

(** wasm.js:45-47, 49-63: init and frameBuf, called by anybody; None is an exception *)
Inductive frame_buf_of : page -> option (page * frame_data) -> Prop :=
| Fb_not_ready p : p_ready p = false -> frame_buf_of p None
| Fb_throws p w g m : p_ready p = true -> p_exports p = Some (w, g, m) -> calls w name_ptr g m None -> frame_buf_of p None
| Fb_data p w g m a g' m' : p_ready p = true -> p_exports p = Some (w, g, m) -> calls w name_ptr g m (Some ([a], g', m')) ->
    frame_buf_of p (Some (with_instance p w g' m', js_frame_buf m' a)).

(** wasm.js:8-28 with main.js:12, 15-21: loading, to the end *)
Inductive loads (b : browser) (p : page) : page -> Prop :=
| L_rejected : load_module b = None -> loads b p p
| L_no_memory w p1 : load_module b = Some w -> bind w p = (p1, false) -> loads b p p1
| L_init_throws w p1 : load_module b = Some w -> bind w p = (p1, true) ->
    calls w name_init (globals_at_start w) (memory_at_start w) None -> loads b p (resize p1)
| L_frame_throws w p1 r g m : load_module b = Some w -> bind w p = (p1, true) ->
    calls w name_init (globals_at_start w) (memory_at_start w) (Some (r, g, m)) ->
    frame_buf_of (with_instance (resize p1) w g m) None -> loads b p (with_instance (resize p1) w g m)
| L_painted w p1 r g m p2 d : load_module b = Some w -> bind w p = (p1, true) ->
    calls w name_init (globals_at_start w) (memory_at_start w) (Some (r, g, m)) ->
    frame_buf_of (with_instance (resize p1) w g m) (Some (p2, d)) -> loads b p (with_image p2 (repaint_data d (p_image p2))).
