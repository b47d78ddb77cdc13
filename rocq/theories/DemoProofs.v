(** * The demos *)
From Coq Require Import ZArith.
From Verif Require Import Prim PrimFacts Str M3Hash Geom FontDefs Blit Fonts Demo Spec SpecPaint SpecDemo.
From Verif Require Import FbFacts ClearProofs PaintProofs FontsOk LayoutProofs.

(** The calls, executed *)
Fixpoint run_script (m : cfg) (F : fontset) (fb : frbuf) (c : cursor) (calls : list call)
  : res (frbuf * cursor) :=
  match calls with
  | [] => Ret (fb, c)
  | (clip, st, s) :: t => '(fb, c) <- paint_str m F fb clip c st s ;; run_script m F fb c t
  end.

(** Conditions for the calls, with everything below 2^32 *)
Definition call_ok (F : fontset) (c : cursor) (k : call) : bool :=
  let '(clip, _, s) := k in
  (px (cmin clip) <? px (cmax clip)) && (px (cmax clip) <=? WIDTH) && (py (cmax clip) <=? LINES) &&
  (36 <=? clip_width clip) && (cx c + 36 <=? 4294967296) &&
  (cy c + line_height c + (tallest F + 1) * (str_len s + 1) <=? 4294967296).

Fixpoint script_ok (F : fontset) (c : cursor) (calls : list call) : bool :=
  match calls with
  | [] => true
  | (clip, st, s) :: t =>
      call_ok F c (clip, st, s) &&
      script_ok F (snd (layout (N.to_nat (str_len s)) F clip st c s)) t
  end.

Lemma run_script_ok m F : cfg_ok m -> fontset_ok F -> forall calls c fb,
  is_frbuf fb -> script_ok F c calls = true ->
  exists fb', run_script m F fb c calls = Ret (fb', snd (script F c calls)) /\ is_frbuf fb' /\
    (forall x y, x < STORED_WIDTH -> y < LINES ->
      pixel fb' x y = xorb (pixel fb x y) (script_inked F (fst (script F c calls)) x y)) /\
    (forall x y, WIDTH <= x < STORED_WIDTH -> y < LINES -> pixel fb' x y = pixel fb x y).
Proof.
  intros Hm HF. pose proof (limit_ge m Hm) as HL.
  induction calls as [|[[clip st] s] t IH]; intros c fb Hfb Ok.
  - exists fb. cbn [run_script script fst snd script_inked]. split; [reflexivity|]. split; [exact Hfb|].
    split; [intros; rewrite xorb_false_r; reflexivity|reflexivity].
  - cbn [script_ok] in Ok. apply andb_true_iff in Ok. destruct Ok as [Ok Ot].
    unfold call_ok in Ok. rewrite !andb_true_iff, !N.leb_le, N.ltb_lt in Ok.
    destruct Ok as [[[[[A1 A2] A3] A4] A5] A6].
    assert (Hp : paintable clip) by (split; [split; assumption|assumption]).
    assert (Hc : cursor_fits m F c s).
    { split; [apply N.le_trans with 4294967296; assumption|apply N.le_trans with 4294967296; assumption]. }
    pose proof (paint_refines m F fb clip c st s Hm HF Hfb Hp A4 Hc) as R.
    cbn [run_script script].
    destruct (layout (N.to_nat (str_len s)) F clip st c s) as [ps c'] eqn:El. cbn [snd] in Ot.
    destruct R as (fb1 & E1 & Hfb1 & P1). rewrite E1. cbn [bind].
    pose proof (paint_contained m F fb clip c st s fb1 c' Hm HF Hfb ltac:(lia) Hc E1) as K1.
    destruct (IH c' fb1 Hfb1 Ot) as (fb2 & E2 & Hfb2 & P2 & K2).
    destruct (script F c' t) as [more c''] eqn:Es. cbn [fst snd script_inked] in *.
    exists fb2. split; [exact E2|]. split; [exact Hfb2|]. split.
    + intros x y Hx Hy. rewrite P2, P1 by assumption. apply xorb_assoc.
    + intros x y Hx Hy. rewrite K2 by assumption. apply K1; [lia|exact Hy|].
      unfold in_clip, in_rect. destruct (N.ltb_spec x (px (cmax clip))); [lia|].
      rewrite ?andb_false_r, ?andb_false_l. reflexivity.
Qed.

Lemma clear_full m fb : cfg_ok m -> is_frbuf fb ->
  exists fb', clear_region m fb full_screen = Ret fb' /\ is_frbuf fb' /\
    forall x y, x < STORED_WIDTH -> y < LINES -> pixel fb' x y = (x <? WIDTH) || pixel fb x y.
Proof.
  intros Hm Hfb.
  assert (Hon : on_screen full_screen) by (vm_compute; repeat split; congruence).
  destruct (clear_region m fb full_screen) as [fb'|] eqn:E.
  - destruct (clear_returns m fb full_screen Hm Hfb Hon fb' E) as [Hfb' P].
    exists fb'. split; [reflexivity|]. split; [exact Hfb'|]. intros x y Hx Hy. rewrite P by assumption.
    replace (in_rect _ _ _ _ x y) with (x <? WIDTH); [apply orb_comm|].
    change (x <? WIDTH = (0 <=? x) && (x <? 336) && (0 <=? y) && (y <? 536)).
    change WIDTH with 336. change LINES with 536 in Hy. lia.
  - apply (clear_cases m fb full_screen Hm Hfb) in E. destruct E as (_ & _ & E & _). vm_compute in E. discriminate.
Qed.

Lemma sample_cursor_eq : snd (script blitstr_fonts demo_start sample_calls) = sample_cursor.
Proof. vm_compute. reflexivity. Qed.
Lemma greeting_ok : script_ok blitstr_fonts demo_start greeting_calls = true.
Proof. vm_compute. reflexivity. Qed.
Lemma poem_ok : script_ok blitstr_fonts demo_start poem_calls = true.
Proof. vm_compute. reflexivity. Qed.
Lemma sample_ok : script_ok blitstr_fonts demo_start sample_calls = true.
Proof. vm_compute. reflexivity. Qed.
Lemma last_ok : call_ok blitstr_fonts sample_cursor last_call = true.
Proof. vm_compute. reflexivity. Qed.

Lemma demo_draws m F calls c fb : cfg_ok m -> fontset_ok F -> is_frbuf fb -> script_ok F c calls = true ->
  exists fb1 fb2, clear_region m fb full_screen = Ret fb1 /\
    run_script m F fb1 c calls = Ret (fb2, snd (script F c calls)) /\
    shows_only F (fst (script F c calls)) fb fb2.
Proof.
  intros Hm HF Hfb Ok. destruct (clear_full m fb Hm Hfb) as (fb1 & E1 & Hfb1 & P1).
  destruct (run_script_ok m F Hm HF calls c fb1 Hfb1 Ok) as (fb2 & E2 & Hfb2 & P2 & K2).
  exists fb1, fb2. split; [exact E1|]. split; [exact E2|]. split; [exact Hfb2|].
  assert (HW : WIDTH < STORED_WIDTH) by (vm_compute; reflexivity). split.
  - intros x y Hx Hy. rewrite P2, P1 by lia. destruct (N.ltb_spec x WIDTH); [|lia].
    cbn [orb]. apply xorb_true_l.
  - intros x y Hx Hy. rewrite K2, P1 by lia. destruct (N.ltb_spec x WIDTH); [lia|]. reflexivity.
Qed.

Lemma greeting_run m F fb : short_greeting m F fb =
  (fb <- clear_region m fb full_screen ;;
   '(fb, _) <- run_script m F fb demo_start greeting_calls ;; Ret fb).
Proof.
  unfold short_greeting, greeting_calls, demo_start. cbn [run_script].
  destruct (clear_region m fb full_screen) as [fb1|]; [|reflexivity]. cbn [bind].
  destruct (paint_str _ _ _ _ _ _ str_hello_world) as [[fb2 c2]|]; [|reflexivity]. cbn [bind].
  destruct (paint_str _ _ _ _ _ _ str_hello_cat) as [[fb3 c3]|]; reflexivity.
Qed.

Lemma poem_run m F fb : goose_poem m F fb =
  (fb <- clear_region m fb full_screen ;;
   '(fb, _) <- run_script m F fb demo_start poem_calls ;; Ret fb).
Proof.
  unfold goose_poem, poem_calls, demo_start. cbn [run_script].
  destruct (clear_region m fb full_screen) as [fb1|]; [|reflexivity]. cbn [bind].
  destruct (paint_str _ _ _ _ _ _ str_poem) as [[fb2 c2]|]; reflexivity.
Qed.

(** The last part of sample_text, after the eight strings in the first clip *)
Definition sample_end (m : cfg) (F : fontset) (fb : frbuf) (c : cursor) : res frbuf :=
  let c := cursor_new (cx c) (cy c) (line_height c) in
  min_y <- uadd m (cy c) 12 ;;
  max_y <- usub m (py (cmax padded_screen)) 8 ;;
  min_x <- uadd m (px (cmin padded_screen)) 30 ;;
  max_x <- usub m (px (cmax padded_screen)) 40 ;;
  '(fb, _) <- paint_str m F fb (cliprect_new max_x min_y min_x max_y) c StSmall str_wrap ;;
  Ret fb.

Lemma sample_run m F fb : sample_text m F fb =
  (fb <- clear_region m fb full_screen ;;
   '(fb, c) <- run_script m F fb demo_start sample_calls ;; sample_end m F fb c).
Proof.
  unfold sample_text, sample_calls, demo_start. cbn [run_script].
  destruct (clear_region m fb full_screen) as [fb1|]; [|reflexivity]. cbn [bind].
  destruct (paint_str _ _ _ _ _ StBold str_note) as [[fb2 c2]|]; [|reflexivity]. cbn [bind].
  destruct (paint_str _ _ _ _ _ StRegular str_note) as [[fb3 c3]|]; [|reflexivity]. cbn [bind].
  destruct (paint_str _ _ _ _ _ StSmall str_note) as [[fb4 c4]|]; [|reflexivity]. cbn [bind].
  destruct (paint_str _ _ _ _ _ _ str_sas1) as [[fb5 c5]|]; [|reflexivity]. cbn [bind].
  destruct (paint_str _ _ _ _ _ _ str_sas2) as [[fb6 c6]|]; [|reflexivity]. cbn [bind].
  destruct (paint_str _ _ _ _ _ _ str_sas3) as [[fb7 c7]|]; [|reflexivity]. cbn [bind].
  destruct (paint_str _ _ _ _ _ _ str_sas4) as [[fb8 c8]|]; [|reflexivity]. cbn [bind].
  destruct (paint_str _ _ _ _ _ StRegular str_wrap) as [[fb9 c9]|]; reflexivity.
Qed.

Lemma greeting_shows m fb : cfg_ok m -> is_frbuf fb ->
  exists fb', short_greeting m blitstr_fonts fb = Ret fb' /\
    shows_only blitstr_fonts (fst (script blitstr_fonts demo_start greeting_calls)) fb fb'.
Proof.
  intros Hm Hfb. rewrite greeting_run.
  destruct (demo_draws m blitstr_fonts greeting_calls demo_start fb Hm fonts_ok Hfb greeting_ok)
    as (fb1 & fb2 & E1 & E2 & S2).
  rewrite E1. cbn [bind]. rewrite E2. exists fb2. split; [reflexivity|exact S2].
Qed.

Lemma poem_shows m fb : cfg_ok m -> is_frbuf fb ->
  exists fb', goose_poem m blitstr_fonts fb = Ret fb' /\
    shows_only blitstr_fonts (fst (script blitstr_fonts demo_start poem_calls)) fb fb'.
Proof.
  intros Hm Hfb. rewrite poem_run.
  destruct (demo_draws m blitstr_fonts poem_calls demo_start fb Hm fonts_ok Hfb poem_ok)
    as (fb1 & fb2 & E1 & E2 & S2).
  rewrite E1. cbn [bind]. rewrite E2. exists fb2. split; [reflexivity|exact S2].
Qed.

Lemma script_app F calls2 : forall calls1 c,
  script F c (calls1 ++ calls2) =
  (fst (script F c calls1) ++ fst (script F (snd (script F c calls1)) calls2),
   snd (script F (snd (script F c calls1)) calls2)).
Proof.
  induction calls1 as [|[[clip st] s] t IH]; intros c; cbn [app script].
  - cbn [fst snd app]. destruct (script F c calls2); reflexivity.
  - destruct (layout _ F clip st c s) as [ps c']. rewrite IH.
    destruct (script F c' t) as [more c'']. cbn [fst snd app]. reflexivity.
Qed.

Lemma run_script_app m F calls2 : forall calls1 fb c,
  run_script m F fb c (calls1 ++ calls2) =
  ('(fb, c) <- run_script m F fb c calls1 ;; run_script m F fb c calls2).
Proof.
  induction calls1 as [|[[clip st] s] t IH]; intros fb c; cbn [app run_script]; [reflexivity|].
  destruct (paint_str m F fb clip c st s) as [[fb1 c1]|]; [|reflexivity]. cbn [bind]. apply IH.
Qed.

Lemma script_ok_app F calls2 : forall calls1 c,
  script_ok F c (calls1 ++ calls2) = script_ok F c calls1 && script_ok F (snd (script F c calls1)) calls2.
Proof.
  induction calls1 as [|[[clip st] s] t IH]; intros c; cbn [app script_ok script snd]; [reflexivity|].
  rewrite IH, andb_assoc. destruct (layout _ F clip st c s) as [ps c']. cbn [snd].
  destruct (script F c' t). reflexivity.
Qed.

Lemma ret_pair_snd {A B} (a c : A) (b d : B) : Ret (a, b) = Ret (c, d) -> b = d.
Proof. intros E; injection E; auto. Qed.

Lemma ret_pair_fst {A B} (a c : A) (b d : B) : Ret (a, b) = Ret (c, d) -> a = c.
Proof. intros E; injection E; auto. Qed.

Lemma sample_end_gen m (P : cliprect -> cursor -> res (frbuf * cursor)) x y lh : cfg_ok m -> y < 1000 ->
  (let c := cursor_new (cx (Cursor (Pt x y) lh)) (cy (Cursor (Pt x y) lh)) (line_height (Cursor (Pt x y) lh)) in
   min_y <- uadd m (cy c) 12 ;;
   max_y <- usub m (py (cmax padded_screen)) 8 ;;
   min_x <- uadd m (px (cmin padded_screen)) 30 ;;
   max_x <- usub m (px (cmax padded_screen)) 40 ;;
   '(fb, _) <- P (cliprect_new max_x min_y min_x max_y) c ;;
   Ret fb) =
  ('(fb, _) <- P (cliprect_new 290 (y + 12) 36 522) (Cursor (Pt x y) lh) ;; Ret fb).
Proof.
  intros Hm Hy. pose proof (limit_ge m Hm) as HL.
  change (cursor_new (cx (Cursor (Pt x y) lh)) (cy (Cursor (Pt x y) lh)) (line_height (Cursor (Pt x y) lh)))
    with (Cursor (Pt x y) lh). cbv zeta. change (cy (Cursor (Pt x y) lh)) with y.
  change (py (cmax padded_screen)) with 530. change (px (cmin padded_screen)) with 6.
  change (px (cmax padded_screen)) with 330.
  rewrite (uadd_ok m y 12) by lia. cbn [bind].
  rewrite (usub_ok m 530 8) by lia. cbn [bind]. rewrite (uadd_ok m 6 30) by lia. cbn [bind].
  rewrite (usub_ok m 330 40) by lia. cbn [bind]. reflexivity.
Qed.

Lemma sample_end_eq m F fb c : cfg_ok m -> cy c < 1000 -> sample_end m F fb c =
  ('(fb, _) <- paint_str m F fb (cliprect_new 290 (cy c + 12) 36 522) c StSmall str_wrap ;; Ret fb).
Proof.
  intros Hm Hy. destruct c as [[x y] lh].
  exact (sample_end_gen m (fun clip c => paint_str m F fb clip c StSmall str_wrap) x y lh Hm Hy).
Qed.

Lemma sample_cursor_low : cy sample_cursor < 1000.
Proof. vm_compute. reflexivity. Qed.

Lemma sample_shows m fb : cfg_ok m -> is_frbuf fb ->
  exists fb', sample_text m blitstr_fonts fb = Ret fb' /\
    shows_only blitstr_fonts (fst (script blitstr_fonts demo_start all_sample_calls)) fb fb'.
Proof.
  intros Hm Hfb. rewrite sample_run.
  assert (Ok : script_ok blitstr_fonts demo_start all_sample_calls = true).
  { unfold all_sample_calls. rewrite script_ok_app, sample_ok, sample_cursor_eq.
    cbn [script_ok]. pose proof last_ok as L. unfold last_call in *. rewrite L. reflexivity. }
  destruct (demo_draws m blitstr_fonts all_sample_calls demo_start fb Hm fonts_ok Hfb Ok)
    as (fb1 & fb2 & E1 & E2 & S2).
  rewrite E1. cbn [bind]. unfold all_sample_calls in E2. rewrite run_script_app in E2.
  apply bind_ret_inv in E2. destruct E2 as ([fb3 c3] & E3 & E4).
  rewrite E3. cbn [bind].
  assert (c3 = sample_cursor) as ->.
  { destruct (clear_full m fb Hm Hfb) as (fb1' & E1' & Hfb1 & _). rewrite E1 in E1'. injection E1' as <-.
    destruct (run_script_ok m blitstr_fonts Hm fonts_ok sample_calls demo_start fb1 Hfb1 sample_ok)
      as (fb3' & E3' & _). rewrite E3, sample_cursor_eq in E3'. exact (ret_pair_snd _ _ _ _ E3'). }
  exists fb2. split; [|exact S2].
  unfold last_call in E4. cbn [run_script] in E4.
  apply bind_ret_inv in E4. destruct E4 as ([fb4 c4] & E4 & E5).
  apply ret_pair_fst in E5. subst fb4.
  rewrite (sample_end_eq m blitstr_fonts fb3 sample_cursor Hm sample_cursor_low).
  change (cy sample_cursor + 12) with 444. fold sample_clip. rewrite E4. reflexivity.
Qed.
