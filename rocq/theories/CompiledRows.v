(** * The compiled xor_char: rows of a glyph *)
From Coq Require Import ZArith.
From Verif Require Import PrimFacts Str M3Hash FontDefs Geom FbFacts Blit Webasm WebasmLogic DemoCode SpecCompiled CompiledBase CompiledHash
  CompiledFind CompiledFile CompiledTables Fonts.

(** ** Arithmetic of a release build for wasm32 *)
Lemma usub_wrap a b : a < W -> usub wasm32 a b = Ret (sub32 a b).
Proof.
  intros H. unfold usub. replace (usize_limit wasm32) with W by reflexivity. destruct (N.leb_spec b a) as [A|A]; [|reflexivity].
  rewrite sub32_small by assumption. reflexivity.
Qed.
Lemma umul_wrap a b : umul wasm32 a b = Ret (mul32 a b).
Proof.
  unfold umul. replace (usize_limit wasm32) with W by reflexivity. unfold mul32. destruct (N.ltb_spec (a * b) W) as [A|A]; [|reflexivity].
  rewrite N.mod_small by exact A. reflexivity.
Qed.
Lemma shl32_wrap a k : shl32 wasm32 a k = Ret (ishl a k).
Proof.
  unfold shl32, ishl. rewrite !w32_mod. destruct (N.ltb_spec k 32) as [A|A]; [rewrite (N.mod_small k 32) by exact A; reflexivity|].
  rewrite uand1f_mod. reflexivity.
Qed.
Lemma shr32_wrap a k : shr32 wasm32 a k = Ret (ishr a k).
Proof.
  unfold shr32, ishr. destruct (N.ltb_spec k 32) as [A|A]; [rewrite (N.mod_small k 32) by exact A; reflexivity|].
  rewrite uand1f_mod. reflexivity.
Qed.
Lemma ishr_mod a k k' : k mod 32 = k' mod 32 -> ishr a k = ishr a k'.
Proof. intros H. unfold ishr. rewrite H. reflexivity. Qed.
Lemma ishl_lt a k : ishl a k < W. Proof. apply N.mod_lt. discriminate. Qed.
Lemma ishr_lt a k : a < W -> ishr a k < W. Proof. intros H. apply (shiftr_lt _ _ 32). exact H. Qed.

(** ** The model, without what cannot happen *)
Definition pattern (f : font) (off w o : N) : res N :=
  p <- nth_word wasm32 f off (o / 32 + 1) ;;
  if 32 - o mod 32 <? w then
    q <- nth_word wasm32 f off (o / 32 + 2) ;;
    Ret (N.lor (ishr (ishl p (o mod 32)) (32 - w)) (ishr q (64 - o mod 32 - w)))
  else Ret (ishr (ishl p (o mod 32)) (32 - w)).

Lemma row_pattern_eq f off w y : w <= 32 -> y < 256 -> row_pattern wasm32 f off w y = pattern f off w (y * w).
Proof.
  intros Hw Hy. unfold row_pattern, pattern. assert (B : y * w <= 255 * 32) by (apply N.mul_le_mono; lia).
  rewrite umul_wrap, mul32_small by (unfold W; lia). cbn [bind]. rewrite ushr5_div, uand1f_mod. set (o := y * w) in *.
  assert (R : o mod 32 < 32) by (apply N.mod_lt; discriminate). assert (D : o / 32 <= o) by (apply N.div_le_upper_bound; lia).
  rewrite uadd_wrap, add32_small by (unfold W; lia). cbn [bind]. rewrite usub_wrap, sub32_small by (unfold W; lia). cbn [bind].
  rewrite (N.add_comm 1). destruct (nth_word wasm32 f off (o / 32 + 1)) as [p|]; [|reflexivity]. cbn [bind].
  rewrite usub_wrap, sub32_small by (unfold W; lia). cbn [bind]. replace (32 - (32 - o mod 32)) with (o mod 32) by lia.
  rewrite shl32_wrap. cbn [bind]. rewrite usub_wrap, sub32_small by (unfold W; lia). cbn [bind]. rewrite shr32_wrap. cbn [bind].
  destruct (N.ltb_spec (32 - o mod 32) w) as [C|C]; [|reflexivity].
  rewrite usub_wrap, sub32_small by (unfold W; lia). cbn [bind]. rewrite uadd_wrap, add32_small by (unfold W; lia). cbn [bind].
  replace (o / 32 + 1 + 1) with (o / 32 + 2) by lia. destruct (nth_word wasm32 f off (o / 32 + 2)) as [q|]; [|reflexivity]. cbn [bind].
  rewrite usub_wrap, sub32_small by (unfold W; lia). cbn [bind]. rewrite shr32_wrap. cbn [bind].
  replace (32 - (w - (32 - o mod 32))) with (64 - o mod 32 - w) by lia. reflexivity.
Qed.

Definition row (f : font) (ymin off w x0 yy o : N) (fb : frbuf) : res frbuf :=
  if yy <? ymin then Ret fb
  else
    p <- pattern f off w o ;;
    let i := yy * 11 + x0 / 32 in
    let j := yy * 11 + add32 x0 w / 32 in
    if 5895 <? i then Panic
    else
      let fb := upd fb (N.to_nat i) (N.lxor (nth (N.to_nat i) fb 0) (ishl p (x0 mod 32))) in
      if w <=? 32 - x0 mod 32 then Ret fb
      else if 5895 <? j then Panic
      else Ret (upd fb (N.to_nat j) (N.lxor (nth (N.to_nat j) fb 0) (ishr p (32 - x0 mod 32)))).

Lemma nth_word_lt m gs o n v : statics m -> bytes_ok m -> nth_word wasm32 (blitstr_fonts gs) o n = Ret v -> v < W.
Proof.
  intros H K. unfold nth_word. rewrite uadd_wrap. cbn [bind]. rewrite (data_get m gs _ H). destruct (_ <? _); [|discriminate].
  intros E. injection E as <-. apply load32_lt. exact K.
Qed.
Lemma pattern_lt m gs off w o p : statics m -> bytes_ok m -> pattern (blitstr_fonts gs) off w o = Ret p -> p < W.
Proof.
  intros H K. unfold pattern. destruct (nth_word _ _ _ (o / 32 + 1)) as [a|] eqn:A; [|discriminate]. cbn [bind].
  destruct (_ <? w).
  - destruct (nth_word _ _ _ (o / 32 + 2)) as [b|] eqn:B; [|discriminate]. cbn [bind]. intros E. injection E as <-.
    apply (lor_lt _ _ 32); apply ishr_lt; [apply ishl_lt|]. exact (nth_word_lt m gs _ _ _ H K B).
  - intros E. injection E as <-. apply ishr_lt. apply ishl_lt.
Qed.

Lemma xor_row_eq m gs clip off w x0 y0 y fb : statics m -> bytes_ok m -> is_frbuf fb -> w <= 32 -> y < 256 -> y0 <= 536 -> x0 < W ->
  xor_row wasm32 (blitstr_fonts gs) clip off w (ushr5 x0) (ushr5 (add32 x0 w)) (32 - x0 mod 32) y0 y fb =
  row (blitstr_fonts gs) (py (cmin clip)) off w x0 (y0 + y) (y * w) fb.
Proof.
  intros H K F Hw Hy Hy0 Hx. unfold xor_row, row. rewrite uadd_wrap, add32_small by (unfold W; lia). cbn [bind].
  destruct (y0 + y <? py (cmin clip)); [reflexivity|]. rewrite row_pattern_eq by assumption.
  destruct (pattern _ off w (y * w)) as [p|] eqn:P; [|reflexivity]. cbn [bind]. assert (Hp := pattern_lt m gs _ _ _ _ H K P).
  change WORDS_PER_LINE with 11. rewrite umul_wrap, mul32_small by (unfold W; lia). cbn [bind].
  rewrite !ushr5_div. assert (R : x0 mod 32 < 32) by (apply N.mod_lt; discriminate).
  assert (X0 : x0 / 32 < 134217728) by (apply N.div_lt_upper_bound; unfold W in *; lia).
  assert (X1 : add32 x0 w / 32 < 134217728) by (apply N.div_lt_upper_bound; [discriminate|]; apply (add32_lt x0 w)).
  rewrite uadd_wrap, add32_small by (unfold W; lia). cbn [bind]. rewrite usub_wrap, sub32_small by (unfold W; lia). cbn [bind].
  replace (32 - (32 - x0 mod 32)) with (x0 mod 32) by lia. rewrite shl32_wrap. cbn [bind].
  set (i := (y0 + y) * 11 + x0 / 32). destruct (N.ltb_spec 5895 i) as [C|C].
  { rewrite aget_panic by (rewrite (frbuf_length fb F); lia). reflexivity. }
  rewrite fb_aget by (try assumption; lia). cbn [bind]. rewrite fb_aset by (try assumption; lia). cbn [bind].
  rewrite N.leb_antisym. destruct (N.ltb_spec (32 - x0 mod 32) w) as [D|D]; cbn [negb]; [|reflexivity].
  set (fb1 := upd fb (N.to_nat i) _).
  assert (F1 : is_frbuf fb1). { apply upd_frbuf; [exact F|]. apply (lxor_lt _ _ 32); [apply fb_word_lt; [exact F|lia]|apply ishl_lt]. }
  rewrite uadd_wrap, add32_small by (unfold W; lia). cbn [bind]. rewrite shr32_wrap. cbn [bind].
  set (j := (y0 + y) * 11 + add32 x0 w / 32). destruct (N.ltb_spec 5895 j) as [E|E].
  { rewrite aget_panic by (rewrite (frbuf_length fb1 F1); lia). reflexivity. }
  rewrite fb_aget by (try assumption; lia). cbn [bind]. rewrite fb_aset by (try assumption; lia). reflexivity.
Qed.

Lemma sub32_mod32 a b : b < W -> sub32 a b mod 32 = (a + 32 - b mod 32) mod 32.
Proof.
  intros H. unfold sub32. assert (R : b mod 32 < 32) by (apply N.mod_lt; discriminate). assert (D := N.div_mod b 32 ltac:(discriminate)).
  assert (Q : b / 32 < 134217728) by (apply N.div_lt_upper_bound; [discriminate|exact H]).
  replace (W + a - b) with (a + 32 - b mod 32 + (134217727 - b / 32) * 32) by (unfold W; lia).
  set (u := a + 32 - b mod 32 + (134217727 - b / 32) * 32).
  assert (E : u mod W mod 32 = u mod 32).
  { rewrite (N.div_mod u W) at 2 by discriminate. replace (W * (u / W) + u mod W) with (u mod W + 134217728 * (u / W) * 32) by (unfold W; lia).
    rewrite N.mod_add by discriminate. reflexivity. }
  rewrite E. unfold u. apply N.mod_add. discriminate.
Qed.
Lemma ishr_div5 a : ishr a 5 = a / 32. Proof. unfold ishr. change (5 mod 32) with 5. rewrite N.shiftr_div_pow2. reflexivity. Qed.
Lemma land31 a : N.land a 31 = a mod 32. Proof. change 31 with (N.ones 5). apply N.land_ones. Qed.
Lemma shift_left_of l16 w : l16 < W -> l16 mod 32 = w mod 32 -> w <= 32 -> N.land (sub32 0 l16) 31 mod 32 = (32 - w) mod 32.
Proof.
  intros H E Hw. rewrite land31, N.mod_mod, sub32_mod32, E by (discriminate || exact H).
  destruct (N.eq_dec w 32) as [->|C]; [reflexivity|]. rewrite (N.mod_small w) by lia. reflexivity.
Qed.
Lemma shift_right_of r l16 w : l16 < W -> l16 mod 32 = w mod 32 -> w <= 32 -> r < 32 ->
  N.land (sub32 (32 - r) l16) 31 mod 32 = (64 - r - w) mod 32.
Proof.
  intros H E Hw Hr. rewrite land31, N.mod_mod, sub32_mod32, E by (discriminate || exact H).
  destruct (N.eq_dec w 32) as [->|C].
  - change (32 mod 32) with 0. replace (32 - r + 32 - 0) with (64 - r - 32 + 1 * 32) by lia. apply N.mod_add. discriminate.
  - rewrite (N.mod_small w) by lia. f_equal. lia.
Qed.

Lemma statics_fb m m' : statics m -> same_but FB (FB + 23584) m m' -> statics m'.
Proof. intros H K. apply (statics_same m); [exact H|]. intros a A B. apply K. left. exact B. Qed.

(** ** One row *)
Section Rows.
Variables (gs : glyphset) (off w x0 ymin l0 l2 l3 l5 l6 l16 l15 : N) (g : list N).
Hypothesis (Hw : w <= 32) (Hx : x0 < W) (H16 : l16 < W) (E16 : l16 mod 32 = w mod 32).
Let f := blitstr_fonts gs.
(** The local variables at the head of the loop, before the row [yy] of the frame buffer *)
Definition row_locals (yy o l1 l22 l23 : N) : list N :=
  [l0; l1; l2; l3; (44 * yy + 4 * (x0 / 32) + FB) mod W; l5; l6; o; (44 * yy + 4 * (add32 x0 w / 32) + FB) mod W;
   yy * 11 + add32 x0 w / 32; yy; w; set_code gs; yy * 11 + x0 / 32; off; l15; l16; ymin; x0 mod 32; 32 - x0 mod 32;
   N.land (32 - x0 mod 32) 31; N.land (sub32 0 l16) 31; l22; l23].

Lemma row_code yy o m fb l1 l22 l23 (Q : outcome -> Prop) :
  statics m -> bytes_ok m -> fb_at m fb -> is_frbuf fb -> yy < 1000 -> o < 10000 ->
  match row f ymin off w x0 yy o fb with
  | Ret fb' => forall m' l1 l22 l23, is_frbuf fb' -> fb_at m' fb' -> bytes_ok m' -> same_but FB (FB + 23584) m m' ->
      wp demo_env f27_320 (St (row_locals yy o l1 l22 l23) g m' []) Q
  | Panic => Q Trap /\ forall m' l1 l22 l23, Q (Branch 2 (St (row_locals yy o l1 l22 l23) g m' [])) /\ Q (Branch 3 (St (row_locals yy o l1 l22 l23) g m' []))
  end -> wp demo_env f27_316 (St (row_locals yy o l1 l22 l23) g m []) Q.
Proof.
  intros Hs Hok Hat Hfb Hy Ho HQ. unfold f27_316. apply wp_block. unfold row_locals in *. crun.
  assert (R : x0 mod 32 < 32) by (apply N.mod_lt; discriminate). assert (Ro : o mod 32 < 32) by (apply N.mod_lt; discriminate).
  assert (D : o / 32 <= o) by (apply N.div_le_upper_bound; lia).
  unfold row in HQ. apply wp_if; intros Z; rewrite Z in HQ.
  { next. apply HQ; try assumption. apply same_refl. }
  set (i := yy * 11 + x0 / 32) in *. set (j := yy * 11 + add32 x0 w / 32) in *.
  assert (Ai : i <= 5895 -> (44 * yy + 4 * (x0 / 32) + FB) mod W = FB + 4 * i) by (intros C; subst i; rewrite N.mod_small by (unfold FB, W; lia); unfold FB; lia).
  assert (Aj : j <= 5895 -> (44 * yy + 4 * (add32 x0 w / 32) + FB) mod W = FB + 4 * j) by (intros C; subst j; rewrite N.mod_small by (unfold FB, W; lia); unfold FB; lia).
  (* the words of the frame buffer *)
  assert (K : forall p l22 l23, p < W -> pattern f off w o = Ret p ->
    wp demo_env f27_319 (St [l0; p; l2; l3; (44 * yy + 4 * (x0 / 32) + FB) mod W; l5; l6; o; (44 * yy + 4 * (add32 x0 w / 32) + FB) mod W;
      j; yy; w; set_code gs; i; off; l15; l16; ymin; x0 mod 32; 32 - x0 mod 32;
      N.land (32 - x0 mod 32) 31; N.land (sub32 0 l16) 31; l22; l23] g m []) (WebasmLogic.after demo_env f27_320 [] Q)).
  { clear l1 l22 l23. intros p l22 l23 Hp E. rewrite E in HQ. cbn [bind] in HQ. crun.
    apply wp_if; intros C; rewrite C in HQ; [next; apply HQ|]. apply N.ltb_ge in C. run. rewrite (Ai C).
    eapply wp_load; [rewrite N.add_0_r; apply Hat; change FRAME_BUF_SIZE with 5896; lia|unfold FB; lia|]. run.
    eapply wp_store; [apply N.add_0_r|unfold FB; lia|]. run.
    set (v := N.lxor (nth (N.to_nat i) fb 0) (ishl p (x0 mod 32))) in *.
    assert (V : v < W) by (apply (lxor_lt _ _ 32); [apply fb_word_lt; [exact Hfb|lia]|apply ishl_lt]).
    set (fb1 := upd fb (N.to_nat i) v) in *. assert (F1 : is_frbuf fb1) by (apply upd_frbuf; assumption).
    assert (A1 : fb_at (store32 m (FB + 4 * i) v) fb1) by (apply fb_store; try assumption; lia).
    assert (S1 : same_but FB (FB + 23584) m (store32 m (FB + 4 * i) v)) by (apply same_store; lia).
    assert (O1 : bytes_ok (store32 m (FB + 4 * i) v)) by (apply store_ok; exact Hok).
    rewrite <- (Ai C). apply wp_if; intros B; rewrite B in HQ.
    { next. apply HQ; try assumption; rewrite (Ai C); assumption. }
    run. apply wp_if; intros C2; rewrite C2 in HQ; [next; apply HQ|]. apply N.ltb_ge in C2. run. rewrite (Aj C2).
    eapply wp_load; [rewrite N.add_0_r, (Ai C); apply A1; change FRAME_BUF_SIZE with 5896; lia|unfold FB; lia|]. run.
    eapply wp_store; [apply N.add_0_r|unfold FB; lia|]. apply wp_nil. next. rewrite (Ai C).
    rewrite (ishr_mod p (N.land (32 - x0 mod 32) 31) (32 - x0 mod 32)) by (rewrite land31; apply N.mod_mod; discriminate).
    set (v' := N.lxor (nth (N.to_nat j) fb1 0) (ishr p (32 - x0 mod 32))) in *.
    assert (V' : v' < W) by (apply (lxor_lt _ _ 32); [apply fb_word_lt; [exact F1|lia]|apply ishr_lt; exact Hp]).
    rewrite <- (Ai C), <- (Aj C2). apply HQ; rewrite ?(Ai C), ?(Aj C2).
    + apply upd_frbuf; assumption.
    + apply fb_store; try assumption; lia.
    + apply store_ok; exact O1.
    + eapply same_trans; [exact S1|]. apply same_store; lia. }
  run. rewrite (ishr_div5 o). rewrite (add32_small (o / 32) 1) by (unfold W; lia).
  eapply wp_call; [reflexivity|reflexivity|]. cbn [rev firstn skipn app].
  eapply fwp_mono; [|apply nth_word_compiled; exact Hs]. intros r ->. fold f. assert (E := eq_refl (pattern f off w o)). unfold pattern at 2 in E.
  destruct (nth_word wasm32 f off (o / 32 + 1)) as [p|] eqn:P; cbn [bind] in E; [|rewrite E in HQ; exact (proj1 HQ)].
  cbn [app]. run. rewrite (land31 o), (ishr_mod _ _ (32 - w)) by (apply shift_left_of; assumption).
  apply wp_block. crun. rewrite (sub32_small 32 (o mod 32)) by (unfold W; lia).
  set (a := ishr (ishl p (o mod 32)) (32 - w)) in *. assert (Ha : a < W) by (apply ishr_lt; apply ishl_lt).
  rewrite N.leb_antisym. apply wp_if; intros B; [apply Bool.negb_true_iff in B|apply Bool.negb_false_iff in B]; rewrite B in E.
  { next. apply K; assumption. }
  run. rewrite (add32_small (o / 32) 2) by (unfold W; lia).
  eapply wp_call; [reflexivity|reflexivity|]. cbn [rev firstn skipn app].
  eapply fwp_mono; [|apply nth_word_compiled; exact Hs]. intros r ->. fold f.
  destruct (nth_word wasm32 f off (o / 32 + 2)) as [q|] eqn:P2; cbn [bind] in E; [|rewrite E in HQ; exact (proj1 HQ)].
  cbn [app]. run. rewrite (ishr_mod _ _ (64 - o mod 32 - w)) by (apply shift_right_of; assumption).
  apply wp_nil. next. apply K; [|rewrite E, N.lor_comm; reflexivity].
  apply (lor_lt _ _ 32); [apply ishr_lt; exact (nth_word_lt m gs _ _ _ Hs Hok P2)|exact Ha].
Qed.

(** ** The rows *)
Lemma rows_code n : forall yy o m fb l1 l22 l23 (Q : outcome -> Prop),
  statics m -> bytes_ok m -> fb_at m fb -> is_frbuf fb -> yy + N.of_nat n < 900 -> o + w * N.of_nat n < 9900 ->
  l15 = yy + 1 + N.of_nat n ->
  match for_n (Datatypes.S n) 0 (fun y => row f ymin off w x0 (yy + y) (o + y * w)) fb with
  | Ret fb' => forall m' l1 l4 l7 l8 l9 l10 l13 l22 l23, is_frbuf fb' -> fb_at m' fb' -> bytes_ok m' -> same_but FB (FB + 23584) m m' ->
      wp demo_env f27_321 (St [l0; l1; l2; l3; l4; l5; l6; l7; l8; l9; l10; w; set_code gs; l13; off; l15; l16; ymin; x0 mod 32; 32 - x0 mod 32;
        N.land (32 - x0 mod 32) 31; N.land (sub32 0 l16) 31; l22; l23] g m' []) Q
  | Panic => Q Trap /\ forall m' yy o l1 l22 l23, Q (Branch 1 (St (row_locals yy o l1 l22 l23) g m' [])) /\ Q (Branch 2 (St (row_locals yy o l1 l22 l23) g m' []))
  end -> wp demo_env (ILoop f27_316 :: f27_321) (St (row_locals yy o l1 l22 l23) g m []) Q.
Proof.
  assert (SH : forall n yy o fb, for_n n 1 (fun y => row f ymin off w x0 (yy + y) (o + y * w)) fb =
    for_n n 0 (fun y => row f ymin off w x0 (yy + 1 + y) (o + w + y * w)) fb).
  { clear. intros n yy o fb.
    enough (H : forall i fb, for_n n (i + 1) (fun y => row f ymin off w x0 (yy + y) (o + y * w)) fb =
      for_n n i (fun y => row f ymin off w x0 (yy + 1 + y) (o + w + y * w)) fb) by exact (H 0 fb).
    induction n as [|n IH]; intros i b; cbn [for_n]; [reflexivity|].
    replace (yy + (i + 1)) with (yy + 1 + i) by lia. replace (o + (i + 1) * w) with (o + w + i * w) by lia.
    destruct (row _ _ _ _ _ (yy + 1 + i) _ b); [|reflexivity]. cbn [bind]. apply IH. }
  assert (FS : forall (b : N -> frbuf -> res frbuf) n i s, for_n (Datatypes.S n) i b s = (s <- b i s ;; for_n n (i + 1) b s)) by reflexivity.
  assert (X0 : x0 / 32 < 134217728) by (apply N.div_lt_upper_bound; [discriminate|]; exact Hx).
  assert (X1 : add32 x0 w / 32 < 134217728) by (apply N.div_lt_upper_bound; [discriminate|]; apply (add32_lt x0 w)).
  assert (AM : forall a, add32 (a mod W) 44 = (a + 44) mod W) by (intros a; unfold add32; apply N.add_mod_idemp_l; discriminate).
  induction n as [|n IH]; intros yy o m fb l1 l22 l23 Q Hs Hok Hat Hfb Hy Ho H15 HQ; rewrite FS in HQ; cbv beta in HQ;
    change (0 * w) with 0 in HQ; rewrite !N.add_0_r in HQ; apply wp_loop_step; apply (row_code yy o m fb); try assumption; try lia;
    destruct (row f ymin off w x0 yy o fb) as [fb1|] eqn:E; cbn [bind] in HQ;
    try (split; [exact (proj1 HQ)|intros m' k1 k22 k23; split; apply (proj2 HQ)]);
    clear l1 l22 l23; intros m' l1 l22 l23 F1 A1 O1 S1; unfold row_locals; crun; rewrite (add32_small yy 1) by (unfold W; lia).
  - apply wp_not_taken; [apply Bool.negb_false_iff; apply N.eqb_eq; lia|]. apply wp_nil. cbn [again]. unfold restack; cbn [locals globals mem stack].
    apply HQ; assumption.
  - apply wp_taken; [apply Bool.negb_true_iff; apply N.eqb_neq; lia|]. cbn [again restack locals globals mem].
    rewrite !AM, (add32_small (yy * 11 + _) 11), (add32_small (yy * 11 + x0 / 32) 11), (add32_small o w) by (unfold W; lia).
    replace (44 * yy + 4 * (x0 / 32) + FB + 44) with (44 * (yy + 1) + 4 * (x0 / 32) + FB) by lia.
    replace (44 * yy + 4 * (add32 x0 w / 32) + FB + 44) with (44 * (yy + 1) + 4 * (add32 x0 w / 32) + FB) by lia.
    replace (yy * 11 + x0 / 32 + 11) with ((yy + 1) * 11 + x0 / 32) by lia.
    replace (yy * 11 + add32 x0 w / 32 + 11) with ((yy + 1) * 11 + add32 x0 w / 32) by lia.
    apply (IH (yy + 1) (o + w) m' fb1); try assumption; try lia; try exact (statics_fb m m' Hs S1).
    change (0 + 1) with 1 in HQ. rewrite SH in HQ.
    destruct (for_n _ _ _ _); [|exact HQ]. intros; apply HQ; try assumption. eapply same_trans; eassumption.
Qed.
End Rows.
