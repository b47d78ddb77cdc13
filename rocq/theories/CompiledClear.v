(** * The compiled clear_region *)
From Coq Require Import ZArith.
From Verif Require Import PrimFacts Geom FbFacts Blit Webasm WebasmLogic DemoCode SpecCompiled CompiledBase.

Ltac num := repeat first [rewrite add32_small by lia | rewrite mul32_small by lia | rewrite ishl2_small by lia].

Lemma uadd_wasm32 a b : a + b < W -> uadd wasm32 a b = Ret (a + b).
Proof.
  intros H. unfold uadd. replace (usize_limit wasm32) with W by reflexivity.
  destruct (N.ltb_spec (a + b) W) as [_|B]; [reflexivity|lia].
Qed.

(** The loop over the words between the ends *)
Lemma clear_inner n : forall base w m fb fb' l1 l2 l4 l5 l6 l7 l8 l9 l10 l11 l12 g (Q : outcome -> Prop),
  is_frbuf fb -> fb_at m fb -> bytes_ok m -> 0 < N.of_nat n -> base + w + N.of_nat n <= 5896 ->
  for_n n w (fun w fb => i <- uadd wasm32 base w ;; aset fb i 0xffffffff) fb = Ret fb' ->
  (forall m' l0 l3 l13, is_frbuf fb' -> fb_at m' fb' -> bytes_ok m' -> same_but FB (FB + 23584) m m' ->
     Q (Branch 2 (St [l0; l1; l2; l3; l4; l5; l6; l7; l8; l9; l10; l11; l12; l13] g m' []))) ->
  wp demo_env [ILoop f1_7] (St [FB + 4 * (base + w); l1; l2; base + w; l4; l5; l6; l7; l8; l9; l10; l11; l12; N.of_nat n] g m []) Q.
Proof.
  induction n as [|n IH]; intros base w m fb fb' l1 l2 l4 l5 l6 l7 l8 l9 l10 l11 l12 g Q Hfb Hat Hok Hn Hb E HQ; [cbn in Hn; lia|].
  cbn [for_n] in E. rewrite uadd_wasm32 in E by (unfold W; lia). cbn [bind] in E.
  rewrite fb_aset in E by (try assumption; lia). cbn [bind] in E.
  apply wp_loop_step. crun.
  apply wp_not_taken; [apply N.ltb_ge; lia|]. run.
  eapply wp_store; [apply N.add_0_r|unfold FB; lia|]. run.
  assert (Hfb1 : is_frbuf (upd fb (N.to_nat (base + w)) 4294967295)) by (apply upd_frbuf; [assumption|reflexivity]).
  assert (Hat1 := fb_store m fb (base + w) 4294967295 Hat Hfb ltac:(lia) ltac:(reflexivity)).
  assert (Hs : same_but FB (FB + 23584) m (store32 m (FB + 4 * (base + w)) 4294967295)) by (apply same_store; lia).
  assert (Hok1 : bytes_ok (store32 m (FB + 4 * (base + w)) 4294967295)) by (apply store_ok; exact Hok).
  replace (add32 (N.of_nat (S n)) 4294967295) with (N.of_nat n) by (unfold add32, W; symmetry; replace (N.of_nat (S n) + 4294967295) with (N.of_nat n + 1 * 4294967296) by lia; rewrite N.mod_add by lia; apply N.mod_small; lia).
  rewrite (add32_small (FB + 4 * (base + w)) 4) by (unfold FB, W; lia). rewrite (add32_small (base + w) 1) by (unfold W; lia).
  apply wp_if; intros Z.
  - apply N.eqb_eq in Z. assert (n = 0%nat) as -> by lia. cbn [for_n] in E. injection E as <-.
    cbn [again]. apply HQ; assumption.
  - apply N.eqb_neq in Z. apply wp_br. cbn [again restack locals globals mem stack].
    replace (FB + 4 * (base + w) + 4) with (FB + 4 * (base + (w + 1))) by lia.
    replace (base + w + 1) with (base + (w + 1)) by lia.
    apply (IH base (w + 1) _ (upd fb (N.to_nat (base + w)) 4294967295) fb'); try assumption; try lia.
    intros m' l0 l3 l13 A B O C. apply HQ; try assumption. eapply same_trans; eassumption.
Qed.

Lemma clear_words n : forall base w fb, is_frbuf fb -> base + w + N.of_nat n <= 5896 ->
  exists fb', for_n n w (fun w fb => i <- uadd wasm32 base w ;; aset fb i 0xffffffff) fb = Ret fb' /\ is_frbuf fb'.
Proof.
  induction n as [|n IH]; intros base w fb Hfb Hb; [exists fb; split; [reflexivity|exact Hfb]|].
  cbn [for_n]. rewrite uadd_wasm32 by (unfold W; lia). cbn [bind]. rewrite fb_aset by (try assumption; lia). cbn [bind].
  apply IH; [|lia]. apply upd_frbuf; [exact Hfb|reflexivity].
Qed.

(** A row of the model, without what cannot happen *)
Definition plain_row (lo hi m1 m2 y : N) (fb : frbuf) : res frbuf :=
  let fb1 := upd fb (N.to_nat (11 * y + lo)) (N.lor (nth (N.to_nat (11 * y + lo)) fb 0) m1) in
  fb2 <- for_n (N.to_nat (hi - (lo + 1))) (lo + 1) (fun w fb => i <- uadd wasm32 (11 * y) w ;; aset fb i 0xffffffff) fb1 ;;
  Ret (if lo <? hi then upd fb2 (N.to_nat (11 * y + hi)) (N.lor (nth (N.to_nat (11 * y + hi)) fb2 0) m2) else fb2).

Lemma limit32 : usize_limit wasm32 = W. Proof. reflexivity. Qed.

Lemma clear_row_plain x0 x1 y fb : is_frbuf fb -> y < 536 -> x0 < x1 -> x1 <= 336 ->
  clear_row wasm32 (ushr5 x0) (ushr5 x1) (32 - uand1f x0) (uand1f x1) y fb =
  plain_row (ushr5 x0) (ushr5 x1) (ishl 4294967295 (N.land x0 31)) (ishr 4294967295 (N.land (sub32 0 x1) 31)) y fb.
Proof.
  intros Hfb Hy Hx H1. unfold clear_row, plain_row. rewrite !ushr5_div, !uand1f_mod.
  assert (L0 : x0 / 32 < 11) by (apply N.div_lt_upper_bound; lia). assert (L1 : x1 / 32 < 11) by (apply N.div_lt_upper_bound; lia).
  assert (R0 : x0 mod 32 < 32) by (apply N.mod_lt; lia). assert (R1 : x1 mod 32 < 32) by (apply N.mod_lt; lia).
  change WORDS_PER_LINE with 11. rewrite umul_ok by (rewrite limit32; unfold W; lia). cbn [bind].
  rewrite usub_ok by lia. cbn [bind]. replace (32 - (32 - x0 mod 32)) with (x0 mod 32) by lia.
  rewrite shl32_ok by exact R0. cbn [bind]. rewrite w32_mod. change (2 ^ 32) with W.
  rewrite (N.mul_comm y 11). rewrite uadd_wasm32 by (unfold W; lia). cbn [bind].
  rewrite fb_aget by (try assumption; lia). cbn [bind]. rewrite fb_aset by (try assumption; lia). cbn [bind].
  change 31 with (N.ones 5) at 1 2. rewrite !N.land_ones. change (2 ^ 5) with 32.
  assert (E1 : N.shiftl 4294967295 (x0 mod 32) mod W = ishl 4294967295 (x0 mod 32)) by (unfold ishl; rewrite (N.mod_small (x0 mod 32)) by exact R0; reflexivity).
  rewrite E1. unfold for_range.
  match goal with |- context [for_n ?n ?w ?b ?f] => destruct (clear_words n (11 * y) w f) as (fb2 & E & F2) end.
  - apply upd_frbuf; [exact Hfb|]. apply lor_lt; [apply fb_word_lt; [exact Hfb|lia]|]. unfold ishl. apply N.mod_lt. discriminate.
  - lia.
  - rewrite E. cbn [bind]. destruct (N.ltb_spec (x0 / 32) (x1 / 32)) as [Hl|Hl]; [|reflexivity].
    rewrite usub_ok by lia. cbn [bind].
    assert (E2 : shr32 wasm32 4294967295 (32 - x1 mod 32) = Ret (ishr 4294967295 (sub32 0 x1 mod 32))).
    { assert (E3 : sub32 0 x1 mod 32 = (32 - x1 mod 32) mod 32).
      { unfold sub32. rewrite (N.mod_small _ W) by (unfold W; lia).
        destruct (N.eq_dec (x1 mod 32) 0) as [Z|Z].
        - assert (D := N.div_mod x1 32 ltac:(lia)). rewrite Z in D |- *. change ((32 - 0) mod 32) with 0.
          replace (W + 0 - x1) with ((134217728 - x1 / 32) * 32) by (unfold W; lia). apply N.mod_mul. lia.
        - assert (D := N.div_mod x1 32 ltac:(lia)).
          replace (W + 0 - x1) with (32 - x1 mod 32 + (134217727 - x1 / 32) * 32) by (unfold W; lia). apply N.mod_add. lia. }
      rewrite E3. unfold shr32, ishr. destruct (N.ltb_spec (32 - x1 mod 32) 32) as [K|K].
      - rewrite !(N.mod_small (32 - x1 mod 32)) by lia. reflexivity.
      - replace (32 - x1 mod 32) with 32 by lia. reflexivity. }
    rewrite E2. cbn [bind]. rewrite uadd_wasm32 by (unfold W; lia). cbn [bind].
    rewrite fb_aget by (try assumption; lia). cbn [bind]. rewrite fb_aset by (try assumption; lia). reflexivity.
Qed.

(** The body of the loop over the rows, up to where it steps to the next row *)
Lemma clear_row_code lo hi m1 m2 y l1 l7 m fb fb' l0 l3 l12 l13 g (Q : outcome -> Prop) :
  is_frbuf fb -> fb_at m fb -> bytes_ok m -> y < 536 -> lo <= hi -> hi < 11 -> m1 < W -> m2 < W ->
  (lo + 1 < hi -> l7 = hi - (lo + 1)) ->
  plain_row lo hi m1 m2 y fb = Ret fb' ->
  (forall m' l0 l3 l12 l13, is_frbuf fb' -> fb_at m' fb' -> bytes_ok m' -> same_but FB (FB + 23584) m m' ->
     wp demo_env f1_12 (St [l0; l1; y; l3; lo; 11 * y + lo + 1; hi; l7; FB + 4 * (11 * y + (lo + 1)); m1; m2; b2n (hi <=? lo + 1); l12; l13] g m' []) Q) ->
  wp demo_env f1_3 (St [l0; l1; y; l3; lo; 11 * y + lo + 1; hi; l7; FB + 4 * (11 * y + (lo + 1)); m1; m2; b2n (hi <=? lo + 1); l12; l13] g m []) Q.
Proof.
  intros Hfb Hat Hok Hy Hlo Hhi Hm1 Hm2 H7 E HQ. unfold plain_row in E.
  set (i0 := 11 * y + lo) in *. set (i1 := 11 * y + hi) in *.
  set (fb1 := upd fb (N.to_nat i0) (N.lor (nth (N.to_nat i0) fb 0) m1)) in *.
  assert (B0 : nth (N.to_nat i0) fb 0 < W) by (apply fb_word_lt; [exact Hfb|lia]).
  assert (B1 : N.lor (nth (N.to_nat i0) fb 0) m1 < W) by (apply (lor_lt _ _ 32); assumption).
  assert (F1 : is_frbuf fb1) by (apply upd_frbuf; assumption).
  destruct (clear_words (N.to_nat (hi - (lo + 1))) (11 * y) (lo + 1) fb1 F1) as (fb2 & E2 & F2); [lia|].
  rewrite E2 in E. cbn [bind] in E.
  (* after the block of the first word and the loop *)
  assert (K : forall m2' l0 l3 l13, fb_at m2' fb2 -> bytes_ok m2' -> same_but FB (FB + 23584) m m2' ->
    wp demo_env f1_10 (St [l0; l1; y; l3; lo; i0 + 1; hi; l7; FB + 4 * (11 * y + (lo + 1)); m1; m2; b2n (hi <=? lo + 1); 11 * y; l13] g m2' []) Q).
  { clear l0 l3 l12 l13. intros m2' l0 l3 l13 A2 O2 S2. unfold f1_10. apply wp_block. crun. apply wp_if; intros Z.
    - apply N.leb_le in Z. cbn [after]. destruct (N.ltb_spec lo hi) as [C|C]; [lia|]. injection E as <-. apply HQ; assumption.
    - apply N.leb_gt in Z. run. rewrite add32_small by (unfold W; lia). fold i1.
      apply wp_not_taken; [apply N.ltb_ge; lia|]. run. rewrite ishl2_small by (unfold W; lia).
      rewrite add32_small by (unfold W; lia). replace (4 * i1 + 2636384) with (FB + 4 * i1) by (unfold FB; lia).
      eapply wp_load; [rewrite N.add_0_r; apply A2; change FRAME_BUF_SIZE with 5896; lia|unfold FB; lia|]. run.
      eapply wp_store; [apply N.add_0_r|unfold FB; lia|]. apply wp_nil. cbn [after restack locals globals mem].
      destruct (N.ltb_spec lo hi) as [C|C]; [|lia]. injection E as <-.
      assert (B2 : N.lor (nth (N.to_nat i1) fb2 0) m2 < W) by (apply (lor_lt _ _ 32); [apply fb_word_lt; [exact F2|lia]|exact Hm2]).
      apply HQ.
      + apply upd_frbuf; assumption.
      + apply fb_store; try assumption. lia.
      + apply store_ok. exact O2.
      + eapply same_trans; [exact S2|]. apply same_store; lia. }
  unfold f1_3. apply wp_block. unfold f1_4. apply wp_block. unfold f1_5. apply wp_block. crun.
  rewrite mul32_small by (unfold W; lia). rewrite (N.mul_comm y 11). rewrite add32_small by (unfold W; lia). fold i0.
  apply wp_not_taken; [apply N.ltb_ge; lia|]. run. rewrite ishl2_small by (unfold W; lia).
  rewrite add32_small by (unfold W; lia). replace (4 * i0 + 2636384) with (FB + 4 * i0) by (unfold FB; lia).
  eapply wp_load; [rewrite N.add_0_r; apply Hat; change FRAME_BUF_SIZE with 5896; lia|unfold FB; lia|]. run.
  eapply wp_store; [apply N.add_0_r|unfold FB; lia|]. run.
  assert (A1 : fb_at (store32 m (FB + 4 * i0) (N.lor (nth (N.to_nat i0) fb 0) m1)) fb1) by (apply fb_store; try assumption; lia).
  assert (S1 : same_but FB (FB + 23584) m (store32 m (FB + 4 * i0) (N.lor (nth (N.to_nat i0) fb 0) m1))) by (apply same_store; lia).
  assert (O1 : bytes_ok (store32 m (FB + 4 * i0) (N.lor (nth (N.to_nat i0) fb 0) m1))) by (apply store_ok; exact Hok).
  apply wp_if; intros Z.
  - apply N.leb_le in Z. cbn [after restack locals globals mem]. replace (N.to_nat (hi - (lo + 1))) with 0%nat in E2 by lia.
    cbn [for_n] in E2. injection E2 as <-. apply K; assumption.
  - apply N.leb_gt in Z. rewrite (H7 Z). rewrite <- (N2Nat.id (hi - (lo + 1))). replace (i0 + 1) with (11 * y + (lo + 1)) by (subst i0; lia).
    apply (clear_inner _ _ _ _ fb1 fb2); try assumption; try lia.
    intros m' k0 k3 k13 _ A O S. cbn [after restack locals globals mem].
    replace (11 * y + (lo + 1)) with (i0 + 1) at 1 by (subst i0; lia). rewrite N2Nat.id, <- (H7 Z). apply K; try assumption.
    eapply same_trans; eassumption.
Qed.

(** The loop over the rows *)
Lemma clear_rows lo hi m1 m2 l7 l1 n : forall y m fb fb' l0 l3 l12 l13 g (Q : outcome -> Prop),
  is_frbuf fb -> fb_at m fb -> bytes_ok m -> l1 = y + 1 + N.of_nat n -> l1 <= 536 -> lo <= hi -> hi < 11 -> m1 < W -> m2 < W ->
  (lo + 1 < hi -> l7 = hi - (lo + 1)) ->
  for_n (S n) y (plain_row lo hi m1 m2) fb = Ret fb' ->
  (forall m' l, is_frbuf fb' -> fb_at m' fb' -> bytes_ok m' -> same_but FB (FB + 23584) m m' -> Q (Done (St l g m' []))) ->
  wp demo_env [ILoop f1_3] (St [l0; l1; y; l3; lo; 11 * y + lo + 1; hi; l7; FB + 4 * (11 * y + (lo + 1)); m1; m2; b2n (hi <=? lo + 1); l12; l13] g m []) Q.
Proof.
  induction n as [|n IH]; intros y m fb fb' l0 l3 l12 l13 g Q Hfb Hat Hok Hn H1 Hlo Hhi Hm1 Hm2 H7 E HQ; cbn [for_n] in E;
    destruct (plain_row lo hi m1 m2 y fb) as [fb1|] eqn:E1; try discriminate E; cbn [bind] in E;
    apply wp_loop_step; apply (clear_row_code lo hi m1 m2 y l1 l7 m fb fb1); try assumption; try lia;
    clear l0 l3 l12 l13; intros m' l0 l3 l12 l13 F1 A1 O1 S1; crun;
    rewrite (add32_small y 1) by (unfold W; lia).
  - injection E as <-. apply wp_not_taken; [apply Bool.negb_false_iff; apply N.eqb_eq; lia|].
    apply wp_nil. cbn [again]. apply wp_nil. apply HQ; assumption.
  - apply wp_taken; [apply Bool.negb_true_iff; apply N.eqb_neq; lia|]. cbn [again restack locals globals mem].
    rewrite (add32_small (FB + _) 44) by (unfold FB, W; lia). rewrite (add32_small (11 * y + lo + 1) 11) by (unfold W; lia).
    replace (FB + 4 * (11 * y + (lo + 1)) + 44) with (FB + 4 * (11 * (y + 1) + (lo + 1))) by lia.
    replace (11 * y + lo + 1 + 11) with (11 * (y + 1) + lo + 1) by lia.
    apply (IH (y + 1) m' fb1 fb'); try assumption; try lia.
    intros m2' l F2 A2 O2 S2. apply HQ; try assumption. eapply same_trans; eassumption.
Qed.

Lemma for_n_ext {S} (P : S -> Prop) (f f' : N -> S -> res S) n : forall i s,
  (forall j s, i <= j -> j < i + N.of_nat n -> P s -> f j s = f' j s /\ exists s', f' j s = Ret s' /\ P s') -> P s ->
  for_n n i f s = for_n n i f' s /\ exists s', for_n n i f' s = Ret s' /\ P s'.
Proof.
  induction n as [|n IH]; intros i s H Hs; cbn [for_n]; [split; [reflexivity|exists s; auto]|].
  destruct (H i s) as (E & s' & E' & Hs'); [lia|lia|exact Hs|]. rewrite E, E'. cbn [bind]. apply IH; [|exact Hs'].
  intros j t A B. apply H; lia.
Qed.

Lemma plain_row_ok lo hi m1 m2 y fb : is_frbuf fb -> y < 536 -> lo <= hi -> hi < 11 -> m1 < W -> m2 < W ->
  exists fb', plain_row lo hi m1 m2 y fb = Ret fb' /\ is_frbuf fb'.
Proof.
  intros Hfb Hy Hlo Hhi Hm1 Hm2. unfold plain_row.
  match goal with |- context [for_n ?n ?w ?b ?f] => destruct (clear_words n (11 * y) w f) as (fb2 & E & F2) end.
  - apply upd_frbuf; [exact Hfb|]. apply (lor_lt _ _ 32); [apply fb_word_lt; [exact Hfb|lia]|exact Hm1].
  - lia.
  - rewrite E. cbn [bind]. eexists. split; [reflexivity|]. destruct (lo <? hi); [|exact F2].
    apply upd_frbuf; [exact F2|]. apply (lor_lt _ _ 32); [apply fb_word_lt; [exact F2|lia]|exact Hm2].
Qed.

Theorem clear_compiled m p clip fb g :
  is_frbuf fb -> fb_at m fb -> bytes_ok m -> clip_at m p clip -> p + 16 <= 2686976 ->
  fwp demo_env 1 [p] g m (fun r => exists m' fb', r = Some ([], g, m') /\ clear_region wasm32 fb clip = Ret fb' /\
    is_frbuf fb' /\ fb_at m' fb' /\ bytes_ok m' /\ same_but FB (FB + 23584) m m').
Proof.
  intros Hfb Hat Hok (C1 & C2 & C3 & C4) Hp.
  destruct clip as [[x0 y0] [x1 y1]]. cbn [cmin cmax px py] in *.
  match goal with |- fwp _ _ _ _ _ ?r => set (R := r) end.
  eapply fwp_intro; [reflexivity|reflexivity|]. cbn [fn_body fn_results]. unfold enter. cbn [fn_locals repeat app].
  unfold f1. apply wp_block. unfold f1_1. apply wp_block.
  assert (K : forall l m' fb', clear_region wasm32 fb (ClipRect (Pt x0 y0) (Pt x1 y1)) = Ret fb' ->
    is_frbuf fb' -> fb_at m' fb' -> bytes_ok m' -> same_but FB (FB + 23584) m m' ->
    wp demo_env f1_13 (St l g m' []) (after demo_env f1_14 [] (finish 0 R))).
  { intros l m' fb' E H1 H2 H3 H4. apply wp_return. cbn [after finish]. exists m', fb'. split; [reflexivity|]. repeat split; try assumption; apply H1. }
  assert (Kskip : forall l, clear_region wasm32 fb (ClipRect (Pt x0 y0) (Pt x1 y1)) = Ret fb ->
    wp demo_env f1_13 (St l g m []) (after demo_env f1_14 [] (finish 0 R))).
  { intros l E. apply (K l m fb); try assumption. apply same_refl. }
  unfold clear_region in K, Kskip. cbn [cmin cmax px py] in K, Kskip. change LINES with 536 in K, Kskip. change WIDTH with 336 in K, Kskip.
  crun. rewrite (add32_small p 12) by (unfold W; lia).
  eapply wp_load; [rewrite N.add_0_r; exact C4|lia|]. run.
  apply wp_if; intros Z1; [apply Kskip; rewrite Z1; reflexivity|].
  run. eapply wp_load; [exact C2|lia|]. run.
  apply wp_if; intros Z2; [apply Kskip; rewrite Z2, orb_true_r; reflexivity|].
  run. eapply wp_load; [exact C3|lia|]. run.
  apply wp_if; intros Z3; [apply Kskip; rewrite Z3, orb_true_r; reflexivity|].
  run. eapply wp_load; [rewrite N.add_0_r; exact C1|lia|]. run.
  apply wp_if; intros Z4; [apply Kskip; rewrite Z4, orb_true_r; reflexivity|].
  run. rewrite Z1, Z2, Z3, Z4 in K. cbn [orb] in K. clear Kskip.
  apply N.ltb_ge in Z1. apply N.leb_gt in Z2. apply N.ltb_ge in Z3. apply N.leb_gt in Z4.
  rewrite uand1f_mod in K. assert (R0 : x0 mod 32 < 32) by (apply N.mod_lt; lia). rewrite usub_ok in K by lia. cbn [bind] in K.
  rewrite <- uand1f_mod in K.
  assert (L0 : N.shiftr x0 5 <= N.shiftr x1 5) by (rewrite !N.shiftr_div_pow2; apply N.div_le_mono; [discriminate|lia]).
  assert (L1 : N.shiftr x1 5 < 11) by (rewrite N.shiftr_div_pow2; apply N.div_lt_upper_bound; [discriminate|]; change (2 ^ 5 * 11) with 352; lia).
  change (ishr x0 5) with (N.shiftr x0 5). change (ishr x1 5) with (N.shiftr x1 5).
  set (lo := N.shiftr x0 5) in *. set (hi := N.shiftr x1 5) in *.
  rewrite (mul32_small y0 11) by (unfold W; lia). rewrite (add32_small lo (y0 * 11)) by (unfold W; lia).
  rewrite (add32_small (lo + y0 * 11) 1) by (unfold W; lia). rewrite (mul32_small y0 44) by (unfold W; lia).
  rewrite (ishl2_small lo) by (unfold W; lia). rewrite (add32_small (y0 * 44)) by (unfold W; lia).
  rewrite (add32_small (y0 * 44 + _)) by (unfold W; lia). rewrite (add32_small lo 1) by (unfold W; lia).
  replace (lo + y0 * 11 + 1) with (11 * y0 + lo + 1) by lia.
  replace (y0 * 44 + 4 * lo + 2636388) with (FB + 4 * (11 * y0 + (lo + 1))) by (unfold FB; lia).
  set (m1 := ishl 4294967295 (N.land x0 31)) in *. set (m2 := ishr 4294967295 (N.land (sub32 0 x1) 31)) in *.
  assert (M1 : m1 < W) by (apply N.mod_lt; discriminate).
  assert (M2 : m2 < W) by (apply (shiftr_lt _ _ 32); reflexivity).
  destruct (for_n_ext is_frbuf (clear_row wasm32 (ushr5 x0) (ushr5 x1) (32 - uand1f x0) (uand1f x1)) (plain_row lo hi m1 m2)
    (N.to_nat (y1 - y0)) y0 fb) as (E & fb' & E' & F'); [|exact Hfb|].
  { intros j s Hj Hj' Hs. split; [apply clear_row_plain; try assumption; lia|]. apply plain_row_ok; try assumption; lia. }
  replace (N.to_nat (y1 - y0)) with (S (N.to_nat (y1 - y0 - 1))) in E' by lia.
  apply (clear_rows lo hi m1 m2 _ y1 (N.to_nat (y1 - y0 - 1)) y0 m fb fb'); try assumption; try lia.
  - intros H. assert (X : N.lxor lo 4294967295 = 4294967295 - lo).
    { rewrite N.lxor_comm. change 4294967295 with (N.ones 32) at 1. rewrite N.lxor_comm. apply N.lnot_sub_low.
      destruct (N.eq_dec lo 0) as [->|Hz]; [cbn; lia|]. apply N.log2_lt_pow2; [lia|]. change (2 ^ 32) with 4294967296. lia. }
    rewrite X. unfold add32. replace (4294967295 - lo + hi) with (hi - (lo + 1) + 1 * W) by (unfold W; lia).
    rewrite N.mod_add by discriminate. apply N.mod_small. unfold W; lia.
  - intros m' l F A O S. cbn [after restack locals globals mem]. apply (K l m' fb'); try assumption.
    unfold for_range. rewrite E. replace (N.to_nat (y1 - y0)) with (Datatypes.S (N.to_nat (y1 - y0 - 1))) by lia. exact E'.
Qed.
