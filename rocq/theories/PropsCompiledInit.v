(** * C74: the compiled init, and the page that shows what it leaves *)
From Coq Require Import ZArith.
From Verif Require Import PrimFacts Str FontDefs Geom FbFacts Fonts Blit Demo Wasm Webasm WebasmLogic WebasmBin DemoCode SpecCompiled SpecCompiledPaint SpecCompiledPage CompiledBase DemoFile CompiledFile.
From Verif Require Import BasicProofs SpecPaint SpecWasm SpecDemo DemoProofs WasmProofs PropsDemo Png SpecShot PngFiles PngSheets PropsPng CompiledInit PropsCompiled.

(** C74: init, compiled, returns without a trap and leaves the frame buffer that the source leaves.  What is above
    the stack pointer and outside the frame buffer stays: the next call finds the tables as they were *)
Theorem C74_init : forall m sp g fb, statics m -> bytes_ok m -> is_frbuf fb -> fb_at m fb -> 464 <= sp -> sp <= 1048576 ->
  exists fb' m', wasm_init wasm32 blitstr_fonts fb = Ret fb' /\
    (forall r, invoke demo_env 0 [] (sp :: g) m r <-> r = Some ([], sp :: g, m')) /\
    is_frbuf fb' /\ fb_at m' fb' /\ statics m' /\ bytes_ok m' /\ only_in [(sp - 464, sp); (FB, FB + 23584)] m m'.
Proof.
  intros m sp g fb A1 A2 A3 A4 A5 A6. destruct (init_compiled fb sp g m A5 A6 A1 A2 A3 A4) as (r & X & Y). unfold inited in Y.
  destruct (init_shows wasm32 fb (or_introl eq_refl) A3) as (fb' & E & _). rewrite E in Y. destruct Y as (m' & -> & B1 & B2 & B3 & B4).
  exists fb', m'. split; [exact E|]. split; [apply fwp_invoke; eexists; split; [exact X|reflexivity]|]. split; [exact B1|]. split; [exact B2|].
  split; [|split; [exact B3|exact B4]]. apply (j_statics sp m ltac:(lia) A6 A1 fb'). exact (conj B1 (conj B2 (conj B3 B4))).
Qed.
Print Assumptions C74_init.

(** The bytes of the frame buffer *)
Lemma word_bytes m a k : bytes_ok m -> (k < 4)%nat -> nth k (le_bytes (load32 m a)) 0 = m (a + N.of_nat k).
Proof.
  intros H Hk. assert (L := fun x => H x : m x < 256). unfold le_bytes, load32. cbn [load]. replace 255 with (N.ones 8) by reflexivity. rewrite !N.land_ones, !N.shiftr_div_pow2.
  change (2 ^ 8) with 256. change (2 ^ 16) with (256 * 256). change (2 ^ 24) with (256 * 256 * 256). rewrite <- !N.div_div by discriminate.
  assert (D : forall x y, x < 256 -> (x + 256 * y) / 256 = y /\ (x + 256 * y) mod 256 = x).
  { intros x y Hx. rewrite (N.mul_comm 256 y), N.div_add, N.mod_add, N.div_small, N.mod_small by (assumption || discriminate). split; reflexivity. }
  do 4 (destruct k as [|k]; [cbn [nth]; rewrite ?(proj1 (D _ _ (L _))); rewrite ?(proj2 (D _ _ (L _))); f_equal; lia|]). exfalso. lia.
Qed.
Lemma frame_bytes m fb i : bytes_ok m -> is_frbuf fb -> fb_at m fb -> i < 23584 ->
  nth (N.to_nat i) (memory_from_ptr fb) 0 = m (FB + i).
Proof.
  intros Ho Hf Ha Hi. assert (G : forall (l : list N) j k, (k < 4)%nat -> (j < length l)%nat -> nth (4 * j + k) (memory_from_ptr l) 0 = nth k (le_bytes (nth j l 0)) 0).
  { induction l as [|w l IH]; intros j k Hk Hj; [cbn in Hj; lia|]. unfold memory_from_ptr. cbn [flat_map]. destruct j as [|j].
    - replace (4 * 0 + k)%nat with k by lia. apply app_nth1. exact Hk.
    - replace (4 * S j + k)%nat with (4 + (4 * j + k))%nat by lia. cbn [length] in Hj. etransitivity; [|apply (IH j k Hk); lia]. reflexivity. }
  assert (Dm := N.div_mod i 4 ltac:(discriminate)). assert (Lm := N.mod_lt i 4 ltac:(discriminate)).
  replace (N.to_nat i) with (4 * N.to_nat (i / 4) + N.to_nat (i mod 4))%nat by lia.
  rewrite G; [|lia|rewrite (frbuf_length fb Hf); change (N.to_nat 5896) with (N.to_nat 5896); lia].
  rewrite <- (Ha (i / 4)) by (change FRAME_BUF_SIZE with 5896; lia). rewrite word_bytes by (assumption || lia). f_equal. lia.
Qed.
Lemma js_reads m fb : bytes_ok m -> is_frbuf fb -> fb_at m fb -> js_frame_buf m FB = frame_buf fb.
Proof.
  intros Ho Hf Ha. unfold js_frame_buf, frame_buf. f_equal. change (536 * 11 * 4) with 23584.
  assert (L : length (memory_from_ptr fb) = N.to_nat 23584).
  { unfold memory_from_ptr. assert (G : forall l, length (flat_map le_bytes l) = (4 * length l)%nat) by (induction l as [|w l IH]; [reflexivity|]; cbn [flat_map]; rewrite app_length, IH; cbn [length le_bytes]; lia).
    rewrite G, (frbuf_length fb Hf). lia. }
  rewrite <- L at 2. rewrite firstn_all.
  apply nth_ext with (d := 0) (d' := 0); [rewrite map_length, seq_length; symmetry; exact L|].
  intros n Hn. rewrite map_length, seq_length in Hn. rewrite (nth_indep _ 0 (m (FB + N.of_nat 0))) by (rewrite map_length, seq_length; exact Hn).
  rewrite (map_nth (fun i => m (FB + N.of_nat i)) _ 0%nat). rewrite seq_nth by exact Hn. cbn [Nat.add].
  assert (X := frame_bytes m fb (N.of_nat n) Ho Hf Ha ltac:(lia)). rewrite Nat2N.id in X. symmetry. exact X.
Qed.

Lemma init_runs n : forall fb m g, statics m -> bytes_ok m -> is_frbuf fb -> fb_at m fb ->
  exists fb0 fb' m', called demo_env 0 (S n) (1048576 :: g) m (1048576 :: g) m' /\ is_frbuf fb0 /\ wasm_init wasm32 blitstr_fonts fb0 = Ret fb' /\
    is_frbuf fb' /\ fb_at m' fb' /\ bytes_ok m'.
Proof.
  induction n as [|n IH]; intros fb m g A B C D; destruct (C74_init m 1048576 g fb A B C D ltac:(lia) ltac:(lia)) as (fb1 & m1 & E & X & F & G & H & I & _).
  - exists fb, fb1, m1. split; [econstructor; [apply X; reflexivity|constructor]|]. split; [exact C|]. split; [exact E|]. split; [exact F|]. split; [exact G|exact I].
  - destruct (IH fb1 m1 g H I F G) as (fb0 & fb' & m' & Y & Z). exists fb0, fb', m'. split; [econstructor; [apply X; reflexivity|exact Y]|exact Z].
Qed.
Lemma called_det M f n g m g1 m1 : called M f n g m g1 m1 -> forall g2 m2, called M f n g m g2 m2 -> g1 = g2 /\ m1 = m2.
Proof.
  induction 1 as [g m|n g m g1 m1 g2 m2 X _ IH]; intros g' m' Y; inversion Y as [|? ? ? ? ? ? ? X' Y']; subst; [split; reflexivity|].
  assert (D := invoke_det _ _ _ _ _ _ _ X X'). injection D as <- <-. apply IH. exact Y'.
Qed.

(** C74: the page.  Whatever module the bytes of demo.wasm decode to: it exports init and frame_buf_ptr; init can be
    called any number of times, and after that wasm.js finds in the memory a frame buffer that makes main.js paint the
    poem, each pixel of it, on the canvas; and this is the picture in doc/goose_poem.png *)
Theorem C74_page : forall w img n, decode demo_file = Some w -> is_image img ->
  exists i f g m fb, exported w [105; 110; 105; 116] = Some (0, i) /\
    exported w [102; 114; 97; 109; 101; 95; 98; 117; 102; 95; 112; 116; 114] = Some (0, f) /\
    (forall g' m', called (module_env w) i (S n) (globals_at_start w) (memory_at_start w) g' m' <-> g' = g /\ m' = m) /\
    (forall r, invoke (module_env w) f [] g m r <-> r = Some ([FB], g, m)) /\
    js_frame_buf m FB = frame_buf fb /\
    (forall x y, x < 336 -> y < 536 -> canvas_pixel (repaint fb img) x y =
      (0x33, 0x33, 0x33, if script_inked blitstr_fonts (fst (script blitstr_fonts demo_start poem_calls)) x y then 0xff else 0)) /\
    exists p, png_decode (file_bytes poem_file) = Ret p /\
      forall x y, (x < 346)%nat -> (y < 146)%nat -> png_colour p x y = (shot_colour (page_pixel (repaint fb img) 5 4 x y), 255).
Proof.
  intros w img n. rewrite demo_decoded. intros E Hi. injection E as <-.
  assert (M : module_env demo_module = demo_env) by (unfold module_env; rewrite demo_functions; reflexivity). rewrite M.
  destruct (init_runs n new_fr_buf demo_memory [2659968; 2659968] demo_statics demo_bytes_ok new_fr_buf_ok demo_fb) as (fb0 & fb & m & X & F0 & E & F & G & O).
  exists 0%nat, 3%nat, [1048576; 2659968; 2659968], m, fb. split; [reflexivity|]. split; [reflexivity|].
  split; [|split; [apply C69_frame_buf_ptr|]].
  { intros g' m'. split; [|intros (-> & ->); exact X]. intros Y. destruct (called_det _ _ _ _ _ _ _ X _ _ Y) as (<- & <-). split; reflexivity. }
  split; [exact (js_reads m fb O F G)|]. split.
  - destruct (C45_page_shows_poem_only wasm32 fb0 img (or_introl eq_refl) F0 Hi) as (fb' & E' & V). rewrite E in E'. injection E' as <-. exact V.
  - destruct (C65_goose_poem_bytes wasm32 fb0 img (or_introl eq_refl) F0 Hi) as (fb' & p & E' & D & _ & _ & V). rewrite E in E'. injection E' as <-.
    exists p. split; [exact D|exact V].
Qed.
Print Assumptions C74_page.

(** The bytes do decode to a module *)
Example C74_there : exists w, decode demo_file = Some w /\ exists g m, called (module_env w) 0 2 (globals_at_start w) (memory_at_start w) g m.
Proof.
  exists demo_module. split; [exact demo_decoded|].
  assert (M : module_env demo_module = demo_env) by (unfold module_env; rewrite demo_functions; reflexivity). rewrite M.
  destruct (init_runs 1 new_fr_buf demo_memory [2659968; 2659968] demo_statics demo_bytes_ok new_fr_buf_ok demo_fb) as (fb0 & fb & m & X & _).
  eexists. eexists. exact X.
Qed.
