(** * Properties C39, C45: the demos and the web demo *)
From Coq Require Import ZArith.
From Verif Require Import Prim PrimFacts Str Geom FontDefs Fonts Blit Demo Wasm BasicProofs
  Spec SpecPaint SpecDemo SpecWasm DemoProofs WasmProofs.

(** C39: each demo returns on every buffer; what is seen is the layout of its strings
    on a clear screen and nothing else. *)
Theorem C39_sample_text : forall m fb, cfg_ok m -> is_frbuf fb ->
  exists fb', sample_text m blitstr_fonts fb = Ret fb' /\
    shows_only blitstr_fonts (fst (script blitstr_fonts demo_start all_sample_calls)) fb fb'.
Proof. exact sample_shows. Qed.
Print Assumptions C39_sample_text.

Theorem C39_short_greeting : forall m fb, cfg_ok m -> is_frbuf fb ->
  exists fb', short_greeting m blitstr_fonts fb = Ret fb' /\
    shows_only blitstr_fonts (fst (script blitstr_fonts demo_start greeting_calls)) fb fb'.
Proof. exact greeting_shows. Qed.
Print Assumptions C39_short_greeting.

Theorem C39_goose_poem : forall m fb, cfg_ok m -> is_frbuf fb ->
  exists fb', goose_poem m blitstr_fonts fb = Ret fb' /\
    shows_only blitstr_fonts (fst (script blitstr_fonts demo_start poem_calls)) fb fb'.
Proof. exact poem_shows. Qed.
Print Assumptions C39_goose_poem.

(** The visible part does not depend on the old contents nor on the compilation mode. *)
Lemma shows_only_same F drawn fb1 fb1' fb2 fb2' :
  shows_only F drawn fb1 fb1' -> shows_only F drawn fb2 fb2' ->
  forall x y, x < WIDTH -> y < LINES -> pixel fb1' x y = pixel fb2' x y.
Proof. intros (_ & H1 & _) (_ & H2 & _) x y Hx Hy. rewrite H1, H2 by assumption. reflexivity. Qed.

Lemma demo_same (demo : cfg -> frbuf -> res frbuf) drawn :
  (forall m fb, cfg_ok m -> is_frbuf fb -> exists fb', demo m fb = Ret fb' /\ shows_only blitstr_fonts drawn fb fb') ->
  forall m1 m2 fb1 fb2 fb1' fb2', cfg_ok m1 -> cfg_ok m2 -> is_frbuf fb1 -> is_frbuf fb2 ->
  demo m1 fb1 = Ret fb1' -> demo m2 fb2 = Ret fb2' ->
  forall x y, x < WIDTH -> y < LINES -> pixel fb1' x y = pixel fb2' x y.
Proof.
  intros H m1 m2 fb1 fb2 fb1' fb2' M1 M2 B1 B2 E1 E2.
  destruct (H m1 fb1 M1 B1) as (g1 & G1 & S1). destruct (H m2 fb2 M2 B2) as (g2 & G2 & S2).
  rewrite E1 in G1. rewrite E2 in G2.
  assert (X1 : fb1' = g1) by congruence. assert (X2 : fb2' = g2) by congruence. clear H E1 E2 G1 G2.
  rewrite X1, X2. exact (shows_only_same _ _ _ _ _ _ S1 S2).
Qed.

Theorem C39_demos_erase : forall (demo : cfg -> fontset -> frbuf -> res frbuf),
  demo = sample_text \/ demo = short_greeting \/ demo = goose_poem ->
  forall m1 m2 fb1 fb2 fb1' fb2', cfg_ok m1 -> cfg_ok m2 -> is_frbuf fb1 -> is_frbuf fb2 ->
  demo m1 blitstr_fonts fb1 = Ret fb1' -> demo m2 blitstr_fonts fb2 = Ret fb2' ->
  forall x y, x < WIDTH -> y < LINES -> pixel fb1' x y = pixel fb2' x y.
Proof.
  intros demo [-> | [-> | ->]].
  - exact (demo_same (fun m => sample_text m blitstr_fonts) _ sample_shows).
  - exact (demo_same (fun m => short_greeting m blitstr_fonts) _ greeting_shows).
  - exact (demo_same (fun m => goose_poem m blitstr_fonts) _ poem_shows).
Qed.
Print Assumptions C39_demos_erase.

(** The command line demo does not panic; at its end the screen shows the greeting only,
    and the padding has the stripes of a new buffer. *)
Theorem C39_command_line_demo : forall m, cfg_ok m ->
  exists fb', demo_main m blitstr_fonts = Ret fb' /\
    shows_only blitstr_fonts (fst (script blitstr_fonts demo_start greeting_calls)) new_fr_buf fb'.
Proof.
  intros m Hm. pose proof new_fr_buf_ok as H0.
  destruct (sample_shows m new_fr_buf Hm H0) as (fb1 & E1 & B1 & _ & P1).
  destruct (greeting_shows m fb1 Hm B1) as (fb2 & E2 & B2 & V2 & P2).
  exists fb2. unfold demo_main. rewrite E1. cbn [bind]. rewrite E2. split; [reflexivity|].
  split; [exact B2|]. split; [exact V2|]. intros x y Hx Hy. rewrite (P2 x y Hx Hy). exact (P1 x y Hx Hy).
Qed.
Print Assumptions C39_command_line_demo.

(** How many glyphs each demo draws. The string wrapped in the small box is cut off by
    the end of the box: 96 of its 109 glyphs are drawn. *)
Example C39_case :
  map (fun d => length (snd d)) (fst (script blitstr_fonts demo_start all_sample_calls))
    = [21; 21; 21; 29; 30; 23; 28; 109; 96]%nat /\
  map (fun d => length (snd d)) (fst (script blitstr_fonts demo_start greeting_calls)) = [13; 9]%nat /\
  map (fun d => length (snd d)) (fst (script blitstr_fonts demo_start poem_calls)) = [23]%nat.
Proof. vm_compute. auto. Qed.

(** The crossbar of the H of the greeting is ink, the pixel left of it is not. *)
Example C39_case_ink :
  let drawn := firstn 1 (fst (script blitstr_fonts demo_start greeting_calls)) in
  map (fun x => script_inked blitstr_fonts drawn x 20) [6; 7; 13] = [false; true; true].
Proof. vm_compute. reflexivity. Qed.

(** C45 *)
Theorem C45_repaint_exact : forall fb img, is_frbuf fb -> is_image img ->
  is_image (repaint fb img) /\
  forall x y, x < 336 -> y < 536 -> canvas_pixel (repaint fb img) x y = right_pixel fb x y.
Proof. exact repaint_exact. Qed.
Print Assumptions C45_repaint_exact.

(** The old canvas and the padding bits have no influence. *)
Theorem C45_repaint_forgets : forall fb1 fb2 img1 img2,
  is_frbuf fb1 -> is_frbuf fb2 -> is_image img1 -> is_image img2 ->
  (forall x y, x < 336 -> y < 536 -> pixel fb1 x y = pixel fb2 x y) ->
  repaint fb1 img1 = repaint fb2 img2.
Proof.
  intros fb1 fb2 img1 img2 B1 B2 I1 I2 H.
  destruct (repaint_exact fb1 img1 B1 I1) as [J1 P1]. destruct (repaint_exact fb2 img2 B2 I2) as [J2 P2].
  apply image_ext; [exact J1|exact J2|]. intros x y Hx Hy.
  rewrite P1, P2 by assumption. unfold right_pixel. rewrite H by assumption. reflexivity.
Qed.
Print Assumptions C45_repaint_forgets.

(** Whole page: init paints the sample text, then the poem, which clears the screen
    first; the canvas shows the poem alone, so the sample text is never seen. *)
Lemma init_shows m fb : cfg_ok m -> is_frbuf fb ->
  exists fb', wasm_init m blitstr_fonts fb = Ret fb' /\
    shows_only blitstr_fonts (fst (script blitstr_fonts demo_start poem_calls)) fb fb'.
Proof.
  intros Hm Hfb. destruct (sample_shows m fb Hm Hfb) as (g & E & Hg & _ & Kg).
  destruct (poem_shows m g Hm Hg) as (fb' & E' & Hfb' & V & K).
  exists fb'. split.
  - unfold wasm_init. rewrite E. cbn [bind]. exact E'.
  - split; [exact Hfb'|]. split; [exact V|]. intros x y Hx Hy. rewrite K, Kg by assumption. reflexivity.
Qed.

Theorem C45_page_shows_poem_only : forall m fb img, cfg_ok m -> is_frbuf fb -> is_image img ->
  exists fb', wasm_init m blitstr_fonts fb = Ret fb' /\
  forall x y, x < 336 -> y < 536 ->
    canvas_pixel (repaint fb' img) x y =
    (0x33, 0x33, 0x33,
     if script_inked blitstr_fonts (fst (script blitstr_fonts demo_start poem_calls)) x y then 0xff else 0).
Proof.
  intros m fb img Hm Hfb Hi. destruct (init_shows m fb Hm Hfb) as (fb' & E & Hfb' & V & _).
  exists fb'. split; [exact E|]. intros x y Hx Hy.
  rewrite (proj2 (repaint_exact fb' img Hfb' Hi)) by assumption.
  unfold right_pixel. rewrite V by assumption.
  destruct (script_inked _ _ x y); reflexivity.
Qed.
Print Assumptions C45_page_shows_poem_only.

(** Bit 31 of a word is a sign bit in JavaScript; the pixel is still right. *)
Example C45_case :
  js_word 0 0 0 0x80 = (- 2 ^ 31)%Z /\ js_and 1 (js_sar (js_word 0 0 0 0x80) 31) = 1%Z /\
  js_and 1 (js_sar (js_word 0 0 0 0x80) 30) = 0%Z.
Proof. vm_compute. auto. Qed.
