(** * C75: demo.wasm is valid, and the page that loads it *)
From Coq Require Import ZArith.
From Verif Require Import PrimFacts Str FontDefs Geom FbFacts Fonts Blit Demo Wasm Webasm WebasmLogic WebasmRun WebasmBin DemoCode SpecCompiled SpecCompiledPage SpecValid DemoFile CompiledFile ValidProofs ValidSound Page.
From Verif Require Import BasicProofs SpecPaint SpecWasm SpecDemo DemoProofs WasmProofs PropsDemo Png SpecShot PngFiles PngSheets PropsPng PropsCompiled PropsCompiledInit.

(** C75: the bytes of demo.wasm are a valid module, and its data segments fit in its memory: engines must accept it *)
Theorem C75_valid : exists w, valid demo_file w /\ fits w.
Proof. exists demo_module. split; [exact demo_valid|exact demo_fits]. Qed.
Print Assumptions C75_valid.

(** C75: a function of a valid module, called with as many arguments as its type says, in any memory, never comes to a
    point where no rule of WebAssembly applies; when it returns, its results are as many as its type says *)
Theorem C75_never_stuck : forall bs w f p r args g m,
  valid bs w -> nth_error (function_types w) f = Some (p, r) -> length args = p -> length g = length (w_globals w) ->
  (forall n fn, nth_error (functions w) f = Some fn -> run n (module_env w) (fn_body fn) (enter fn args g m) <> Stuck) /\
  (forall res g' m', invoke (module_env w) f args g m (Some (res, g', m')) -> length res = r /\ length g' = length g).
Proof. exact valid_runs. Qed.
Print Assumptions C75_never_stuck.

(** Stuck is possible: an addition without operands *)
Example C75_stuck : run 5 (Env [] 0) [IConst 1; IBin Add] (St [] [] (fun _ => 0) []) = Stuck /\
  ~ exists o, exec (Env [] 0) [IConst 1; IBin Add] (St [] [] (fun _ => 0) []) o.
Proof.
  split; [reflexivity|]. intros (o & H). apply run_is_exec in H. destruct H as (n & H). do 3 (destruct n as [|n]; [discriminate H|]). discriminate H.
Qed.
(** clear_region has type [i32] -> [] and never gets stuck, wherever its argument points *)
Example C75_clear_type : nth_error (function_types demo_module) 1 = Some (1, 0)%nat.
Proof. reflexivity. Qed.

(** Calls have one outcome *)
Lemma calls_det w name g m r1 : calls w name g m r1 -> forall r2, calls w name g m r2 -> r1 = r2.
Proof.
  intros [H|f r H I] r2 K; destruct K as [H'|f' r' H' I']; try reflexivity.
  - exfalso. exact (H f' H').
  - exfalso. exact (H' f H).
  - rewrite H in H'. injection H' as <-. exact (invoke_det _ _ _ _ _ _ _ I I').
Qed.
Lemma frame_det p r1 : frame_buf_of p r1 -> forall r2, frame_buf_of p r2 -> r1 = r2.
Proof.
  intros H r2 K. inversion H; inversion K; subst; try reflexivity; try congruence;
    match goal with A : p_exports ?p = Some _, B : p_exports ?p = Some _ |- _ => rewrite A in B; injection B as <- <- <- end;
    match goal with A : calls ?w ?n ?g ?m _, B : calls ?w ?n ?g ?m _ |- _ => assert (D := calls_det _ _ _ _ _ A _ B) end; try discriminate.
  injection D as <- <- <-. reflexivity.
Qed.
(** C75: loading has at most one end *)
Theorem C75_loads_one : forall b p q1 q2, loads b p q1 -> loads b p q2 -> q1 = q2.
Proof.
  intros b p q1 q2 H K. inversion H; inversion K; subst; try reflexivity; try congruence.
  all: repeat match goal with
    | A : load_module ?b = Some ?x, B : load_module ?b = Some ?y |- _ => assert_fails (constr_eq x y); rewrite A in B; injection B as <-
    | A : bind ?w ?p = _, B : bind ?w ?p = _ |- _ => rewrite A in B; try discriminate B; injection B as <-
    end; try reflexivity; try congruence.
  all: repeat match goal with A : calls ?w ?n ?g ?m ?x, B : calls ?w ?n ?g ?m ?y |- _ =>
         assert_fails (constr_eq x y); assert (D := calls_det _ _ _ _ _ A _ B); try discriminate D; injection D as <- <- <-; clear B end; try reflexivity.
  all: match goal with A : frame_buf_of ?p _, B : frame_buf_of ?p _ |- _ => assert (D := frame_det _ _ A _ B) end; try discriminate D; try reflexivity.
  injection D as <- <-. reflexivity.
Qed.
Print Assumptions C75_loads_one.

(** C75: a browser that gets the bytes of demo.wasm (with the right type, if it streams) and whose engine makes of them
    the module they decode to, provided they are valid.  Whatever way it loads them, loading ends; the canvas is then
    336 by 536, and its image is the poem, each pixel of it, as in doc/goose_poem.png; frameBuf returns the frame buffer *)
Definition gets_demo (b : browser) : Prop :=
  exists as_wasm, b_fetch b = Some (as_wasm, demo_file) /\ (b_streaming b = true -> as_wasm = true) /\
    forall w, valid demo_file w -> fits w -> b_engine b demo_file = Some w.
Lemma blank_image : is_image blank.
Proof. unfold is_image, blank. rewrite repeat_length, N2Nat.id. reflexivity. Qed.
#[local] Opaque blank.
Lemma image_rest r e x y img0 img w g m : e = Some (w, g, m) -> let q := with_image (Page r e x y img0) img in
  p_ready q = r /\ p_width q = x /\ p_height q = y /\ p_exports q = Some (w, g, m) /\ with_instance q w g m = q.
Proof. intros ->. repeat split. Qed.
Lemma repaint_data_eq fb img : repaint_data (frame_buf fb) img = repaint fb img.
Proof. unfold repaint_data, repaint. reflexivity. Qed.
Theorem C75_page : forall b p, gets_demo b -> exists q, (forall q', loads b p q' <-> q' = q) /\
  p_ready q = true /\ p_width q = 336 /\ p_height q = 536 /\
  (forall x y, x < 336 -> y < 536 -> canvas_pixel (p_image q) x y =
    (0x33, 0x33, 0x33, if script_inked blitstr_fonts (fst (script blitstr_fonts demo_start poem_calls)) x y then 0xff else 0)) /\
  (exists d, png_decode (file_bytes poem_file) = Ret d /\
    forall x y, (x < 346)%nat -> (y < 146)%nat -> png_colour d x y = (shot_colour (page_pixel (p_image q) 5 4 x y), 255)) /\
  (exists fb, frame_buf_of q (Some (q, frame_buf fb)) /\ p_image q = repaint fb blank).
Proof.
  intros b p (as_wasm & F & A & E). specialize (E demo_module demo_valid demo_fits).
  assert (L : load_module b = Some demo_module).
  { unfold load_module. rewrite F. destruct (b_streaming b) eqn:S; cbn [andb]; [rewrite (A eq_refl); exact E|exact E]. }
  destruct (C74_page demo_module blank 0%nat demo_decoded blank_image) as (i & f & g & m & fb & X1 & X2 & X3 & X4 & X5 & X6 & X7).
  assert (C1 : calls demo_module name_init (globals_at_start demo_module) (memory_at_start demo_module) (Some ([], g, m))).
  { apply (Calls_some _ _ _ _ i); [exact X1|]. assert (Y := proj2 (X3 g m) (conj eq_refl eq_refl)). inversion Y as [|? ? ? g1 m1 ? ? Y1 Y2]; subst. inversion Y2; subst. exact Y1. }
  assert (C2 : calls demo_module name_ptr g m (Some ([FB], g, m))) by (apply (Calls_some _ _ _ _ f); [exact X2|apply X4; reflexivity]).
  set (p2 := Page true (Some (demo_module, g, m)) 336 536 blank).
  assert (B : bind demo_module p = (Page true (Some (demo_module, globals_at_start demo_module, memory_at_start demo_module)) (p_width p) (p_height p) (p_image p), true)).
  { unfold bind. assert (N1 : exported demo_module name_memory = Some (2, 0%nat)) by reflexivity. rewrite N1. reflexivity. }
  assert (D : forall q0, p_ready q0 = true -> p_exports q0 = Some (demo_module, g, m) -> frame_buf_of q0 (Some (with_instance q0 demo_module g m, frame_buf fb))).
  { intros q0 R0 E0. rewrite <- X5. exact (Fb_data q0 demo_module g m FB g m R0 E0 C2). }
  set (q := with_image p2 (repaint_data (frame_buf fb) (p_image p2))).
  assert (Q : loads b p q) by exact (L_painted b p demo_module _ [] g m p2 (frame_buf fb) L B C1 (D p2 eq_refl eq_refl)).
  assert (Eq : p_image q = repaint fb blank) by exact (repaint_data_eq fb blank).
  assert (R : p_ready q = true /\ p_width q = 336 /\ p_height q = 536 /\ p_exports q = Some (demo_module, g, m) /\ with_instance q demo_module g m = q) by exact (image_rest true (Some (demo_module, g, m)) 336 536 blank (repaint_data (frame_buf fb) (p_image p2)) demo_module g m eq_refl).
  rewrite <- Eq in X6, X7. clearbody q. clear p2. destruct R as (R1 & R2 & R3 & R4 & R5).
  exists q. split; [intros q'; split; [intros Q'; exact (C75_loads_one b p q' q Q' Q)|intros ->; exact Q]|].
  split; [exact R1|]. split; [exact R2|]. split; [exact R3|]. split; [exact X6|]. split; [exact X7|].
  exists fb. split; [|exact Eq]. rewrite <- R5 at 2. exact (D q R1 R4).
Qed.
Print Assumptions C75_page.

(** C75: if the file cannot be had, or the engine does not take it, or a browser that streams gets it with another type,
    the page stays as it is; frameBuf throws then on a page on which nothing was loaded before *)
Theorem C75_rejected : forall b p, load_module b = None ->
  (forall q, loads b p q <-> q = p) /\ (p_ready p = false -> forall r, frame_buf_of p r <-> r = None).
Proof.
  intros b p L. split.
  - intros q. split; [|intros ->; constructor; exact L]. intros H. inversion H; subst; try reflexivity; congruence.
  - intros R r. split; [|intros ->; constructor; exact R]. intros H. inversion H; subst; try reflexivity; congruence.
Qed.
Print Assumptions C75_rejected.

(** C75: whatever module is loaded, the canvas keeps its image, or it is cleared, or it shows what frameBuf returned
    after an init that returned *)
Theorem C75_otherwise : forall b p q, loads b p q ->
  p_image q = p_image p \/
  exists w, load_module b = Some w /\ p_ready q = true /\ p_width q = 336 /\ p_height q = 536 /\
    (p_image q = blank \/ exists r g m g' m' a, calls w name_init (globals_at_start w) (memory_at_start w) (Some (r, g, m)) /\
      calls w name_ptr g m (Some ([a], g', m')) /\ p_image q = repaint_data (js_frame_buf m' a) blank).
Proof.
  assert (B : forall w p p1, bind w p = (p1, true) -> p_ready p1 = true).
  { intros w p p1. unfold bind. repeat match goal with |- context [match ?x with _ => _ end] => destruct x end; intros H; try discriminate H; injection H as <-; reflexivity. }
  assert (B' : forall w p p1, bind w p = (p1, false) -> p_image p1 = p_image p).
  { intros w p p1. unfold bind. repeat match goal with |- context [match ?x with _ => _ end] => destruct x end; intros H; try discriminate H; injection H as <-; reflexivity. }
  intros b p q H. inversion H as [L|w p1 L E|w p1 L E C|w p1 r g m L E C F|w p1 r g m p2 d L E C F]; subst.
  - left. reflexivity.
  - left. exact (B' _ _ _ E).
  - right. exists w. split; [exact L|]. split; [exact (B _ _ _ E)|]. split; [reflexivity|]. split; [reflexivity|]. left. reflexivity.
  - right. exists w. split; [exact L|]. split; [exact (B _ _ _ E)|]. split; [reflexivity|]. split; [reflexivity|]. left. reflexivity.
  - right. exists w. split; [exact L|]. inversion F as [| |p' w' g0 m0 a g' m' R X K]; subst. cbn [with_instance resize p_exports] in X. injection X as <- <- <-.
    split; [exact (B _ _ _ E)|]. split; [reflexivity|]. split; [reflexivity|]. right. exists r, g, m, g', m', a. split; [exact C|]. split; [exact K|reflexivity].
Qed.
Print Assumptions C75_otherwise.

(** C75: a module that does not export its memory changes nothing but the exports: the canvas keeps its size and its
    image, and frameBuf throws as long as nothing else makes the page ready *)
Theorem C75_no_memory : forall b p q w, load_module b = Some w -> (forall i, exported w name_memory <> Some (2, i)) -> loads b p q ->
  p_ready q = p_ready p /\ p_width q = p_width p /\ p_height q = p_height p /\ p_image q = p_image p /\
  p_exports q = Some (w, globals_at_start w, memory_at_start w) /\
  (p_ready p = false -> forall r, frame_buf_of q r <-> r = None).
Proof.
  intros b p q w L X H.
  assert (E : bind w p = (Page (p_ready p) (Some (w, globals_at_start w, memory_at_start w)) (p_width p) (p_height p) (p_image p), false)).
  { unfold bind. destruct (exported w name_memory) as [[k i]|]; [|reflexivity].
    destruct (N.eq_dec k 2) as [->|N]; [exfalso; exact (X i eq_refl)|].
    destruct k as [|[[]|[]|]]; try reflexivity. congruence. }
  assert (Q : q = Page (p_ready p) (Some (w, globals_at_start w, memory_at_start w)) (p_width p) (p_height p) (p_image p)).
  { inversion H as [L'|w' p1 L' E'|w' p1 L' E' C|w' p1 r g m L' E' C F|w' p1 r g m p2 d L' E' C F]; subst;
      rewrite L in L'; try discriminate L'; injection L' as <-; rewrite E in E'; congruence. }
  subst q. cbn [p_ready p_width p_height p_image p_exports]. repeat (split; [reflexivity|]).
  intros R r. split; [|intros ->; constructor; exact R]. intros K. inversion K; subst; try reflexivity; cbn [p_ready] in *; congruence.
Qed.
Print Assumptions C75_no_memory.

(** A browser that streams gets the file; one that gets it with another type shows nothing, unless it does not stream *)
Example C75_browsers : gets_demo (Browser true (Some (true, demo_file)) decode) /\ gets_demo (Browser false (Some (false, demo_file)) decode) /\
  forall q, loads (Browser true (Some (false, demo_file)) decode) fresh_page q <-> q = fresh_page.
Proof.
  split; [|split].
  - exists true. split; [reflexivity|]. split; [reflexivity|]. intros w V _. apply V.
  - exists false. split; [reflexivity|]. split; [discriminate|]. intros w V _. apply V.
  - apply C75_rejected. reflexivity.
Qed.
(** A module whose init traps: the canvas gets its size, and stays empty *)
Definition bad_module : wmodule :=
  WModule [(0, 0)]%nat [0%nat] [1] [] [(name_memory, 2, 0%nat); (name_init, 0, 0%nat)] [(0%nat, [IUnreachable])] [].
Example C75_trap : forall q, loads (Browser false (Some (true, [])) (fun _ => Some bad_module)) fresh_page q <->
  q = Page true (Some (bad_module, [], fun _ => 0)) 336 536 blank.
Proof.
  assert (L : loads (Browser false (Some (true, [])) (fun _ => Some bad_module)) fresh_page (Page true (Some (bad_module, [], fun _ => 0)) 336 536 blank)).
  { refine (L_init_throws (Browser false (Some (true, [])) (fun _ => Some bad_module)) fresh_page bad_module (Page true (Some (bad_module, [], fun _ => 0)) 300 150 (p_image fresh_page)) eq_refl eq_refl _). apply (Calls_some _ _ _ _ 0%nat); [reflexivity|].
    eapply Trapped; [reflexivity|reflexivity|constructor]. }
  intros q. split; [intros Q; exact (C75_loads_one _ _ _ _ Q L)|intros ->; exact L].
Qed.
(** A module without exports *)
Example C75_case_no_memory : forall i, exported (WModule [] [] [1] [] [] [] []) name_memory <> Some (2, i).
Proof. intros i. vm_compute. discriminate. Qed.
