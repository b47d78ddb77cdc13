(** * C60: the screenshots of the README *)
From Coq Require Import ZArith String Ascii.
From Verif Require Import Prim PrimFacts Str Geom FontDefs Fonts Blit Demo Wasm
  Spec SpecPaint SpecDemo SpecWasm SpecShot DemoProofs WasmProofs ShotProofs Screenshots ShotCheck PropsDemo.
Local Open Scope N_scope.

Lemma page_shot left right top shot fb0 m fb fb' img drawn (demo : cfg -> frbuf -> res frbuf) :
  demo debug_build new_fr_buf = Ret fb0 -> shot_ok fb0 left right top shot = true ->
  (List.length shot <= top + 536)%nat -> (top <= List.length shot)%nat ->
  (forall m fb, cfg_ok m -> is_frbuf fb -> exists fb', demo m fb = Ret fb' /\ shows_only blitstr_fonts drawn fb fb') ->
  cfg_ok m -> is_frbuf fb -> is_image img -> shows_only blitstr_fonts drawn fb fb' ->
  forall x y, (x < left + 336 + right)%nat -> (y < List.length shot)%nat ->
  shot_pixel shot x y = Some (page_pixel (repaint fb' img) left top x y).
Proof.
  intros E0 Hs L1 L2 Hd Hm Hfb Hi Hs' x y Hx Hy.
  assert (B0 : is_frbuf new_fr_buf).
  { split; [reflexivity|]. unfold new_fr_buf. apply Forall_forall. intros w I. apply repeat_spec in I. subst. reflexivity. }
  assert (M0 : cfg_ok debug_build) by (unfold cfg_ok; tauto).
  destruct (Hd _ _ M0 B0) as (fb0' & E0' & S0). rewrite E0 in E0'. injection E0' as <-.
  pose proof (shows_only_same _ _ _ _ _ _ S0 Hs') as Same. destruct S0 as ([Lb _] & _). destruct Hs' as (Hfb' & _).
  rewrite (shot_sound fb0 left right top shot Hs Lb L1 L2 x y Hx Hy). unfold page_pixel. apply (f_equal (@Some ascii)).
  destruct (Nat.leb left x && Nat.ltb x (left + 336) && Nat.leb top y && Nat.ltb y (top + 536))%bool eqn:C; [|reflexivity].
  apply andb_prop in C. destruct C as [C C4]. apply andb_prop in C. destruct C as [C C3]. apply andb_prop in C. destruct C as [C1 C2].
  apply Nat.leb_le in C1, C3. apply Nat.ltb_lt in C2, C4.
  rewrite (proj2 (repaint_exact fb' img Hfb' Hi)) by lia. unfold right_pixel. cbn [snd].
  rewrite Same by (unfold WIDTH, LINES; lia). destruct (pixel fb' _ _); reflexivity.
Qed.

(** C60: doc/goose_poem.png, "currently the demo looks like this": every pixel of the
    image is the pixel the page shows, with the canvas 5 pixels from the left and 4 from
    the top of the image *)
Theorem C60_goose_poem_shot : forall m fb img, cfg_ok m -> is_frbuf fb -> is_image img ->
  exists fb', wasm_init m blitstr_fonts fb = Ret fb' /\
  forall x y, (x < 346)%nat -> (y < 146)%nat ->
    shot_pixel goose_poem_png x y = Some (page_pixel (repaint fb' img) 5 4 x y).
Proof.
  intros m fb img Hm Hfb Hi. destruct (init_shows m fb Hm Hfb) as (fb' & E & S). exists fb'. split; [exact E|].
  apply (page_shot 5 5 4 goose_poem_png poem_fb m fb fb' img (fst (script blitstr_fonts demo_start poem_calls)) (fun m => goose_poem m blitstr_fonts)).
  - exact poem_painted.
  - exact poem_shot.
  - apply Nat.leb_le. reflexivity.
  - apply Nat.leb_le. reflexivity.
  - exact poem_shows.
  - exact Hm.
  - exact Hfb.
  - exact Hi.
  - exact S.
Qed.
Print Assumptions C60_goose_poem_shot.

(** C60: doc/short_greeting.png, "if you modify the WebAssembly demo to run the example
    code above, the top of the wasm_demo screen should look like this" *)
Theorem C60_short_greeting_shot : forall m fb img, cfg_ok m -> is_frbuf fb -> is_image img ->
  exists fb', short_greeting m blitstr_fonts fb = Ret fb' /\
  forall x y, (x < 351)%nat -> (y < 102)%nat ->
    shot_pixel short_greeting_png x y = Some (page_pixel (repaint fb' img) 7 8 x y).
Proof.
  intros m fb img Hm Hfb Hi. destruct (greeting_shows m fb Hm Hfb) as (fb' & E & S). exists fb'. split; [exact E|].
  apply (page_shot 7 8 8 short_greeting_png greeting_fb m fb fb' img (fst (script blitstr_fonts demo_start greeting_calls)) (fun m => short_greeting m blitstr_fonts)).
  - exact greeting_painted.
  - exact greeting_shot.
  - apply Nat.leb_le. reflexivity.
  - apply Nat.leb_le. reflexivity.
  - exact greeting_shows.
  - exact Hm.
  - exact Hfb.
  - exact Hi.
  - exact S.
Qed.
Print Assumptions C60_short_greeting_shot.

(** Ink, screen and page in the images *)
Example C60_case :
  shot_pixel goose_poem_png 18 15 = Some "#"%char /\ shot_pixel goose_poem_png 8 8 = Some "."%char /\
  shot_pixel goose_poem_png 2 2 = Some "+"%char /\ shot_pixel short_greeting_png 14 23 = Some "#"%char.
Proof. repeat split; vm_compute; reflexivity. Qed.
