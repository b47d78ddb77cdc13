(** * The compiled xor_char: from the glyph to the frame buffer and the cursor *)
From Coq Require Import ZArith.
From Verif Require Import PrimFacts Str M3Hash FontDefs Geom FbFacts Blit Webasm WebasmLogic DemoCode SpecCompiled CompiledBase CompiledHash
  CompiledFind CompiledFile CompiledTables CompiledRows Fonts.

Lemma add32_comm a b : add32 a b = add32 b a. Proof. unfold add32. rewrite N.add_comm. reflexivity. Qed.
Lemma add32_assoc a b c : add32 (add32 a b) c = add32 a (add32 b c).
Proof. unfold add32. rewrite N.add_mod_idemp_l, N.add_mod_idemp_r by discriminate. rewrite N.add_assoc. reflexivity. Qed.

(** ** The header of a glyph *)
Lemma land255' a : N.land a 255 = a mod 256. Proof. change 255 with (N.ones 8). apply N.land_ones. Qed.
Lemma byte_up h k : k <= 24 -> N.shiftr (w32 (N.shiftl h (24 - k))) 24 = N.land (ishr h k) 255.
Proof.
  intros Hk. unfold ishr. rewrite (N.mod_small k) by lia. rewrite land255'. change 256 with (2 ^ 8). rewrite w32_mod.
  rewrite !N.shiftr_div_pow2, N.shiftl_mul_pow2.
  replace (2 ^ 32) with (2 ^ (k + 8) * 2 ^ (24 - k)) by (rewrite <- N.pow_add_r; f_equal; lia).
  rewrite N.mul_mod_distr_r by (apply N.pow_nonzero; discriminate).
  replace (2 ^ 24) with (2 ^ k * 2 ^ (24 - k)) by (rewrite <- N.pow_add_r; f_equal; lia).
  rewrite N.div_mul_cancel_r by (apply N.pow_nonzero; discriminate).
  rewrite N.pow_add_r. rewrite N.mod_mul_r by (apply N.pow_nonzero; discriminate).
  rewrite (N.mul_comm (2 ^ k)), N.div_add by (apply N.pow_nonzero; discriminate). rewrite N.div_small; [reflexivity|].
  apply N.mod_lt. apply N.pow_nonzero. discriminate.
Qed.

Definition max_height (gs : glyphset) : N := match gs with Emoji => 32 | Bold => 30 | Regular => 30 | Small => 24 | Hanzi => 32 end.
Lemma max_height_eq gs : f_max_height (blitstr_fonts gs) = max_height gs. Proof. destruct gs; reflexivity. Qed.

Section Paint.
Variables (gs : glyphset) (off bytes : N) (fb : frbuf) (clip : cliprect) (c : cursor) (s : str).
Variables (ret clipp curp l6 : N) (g : list N) (m : memory).
Hypothesis (Hcl : clipp + 16 <= 1048576) (Hcu : curp + 12 <= 1048576) (Hcc : clipp + 16 <= curp \/ curp + 12 <= clipp).

(** [m'] is [m] except for the frame buffer and the cursor *)
Definition painted (m' : memory) : Prop :=
  forall a, a < FB \/ FB + 23584 <= a -> a < curp \/ curp + 12 <= a -> m' a = m a.
Definition Inv (fb' : frbuf) (c' : cursor) (m' : memory) : Prop :=
  is_frbuf fb' /\ fb_at m' fb' /\ bytes_ok m' /\ statics m' /\ cursor_at m' curp c' /\ clip_at m' clipp clip /\ painted m'.

Lemma painted_trans m' m'' : painted m' -> (forall a, a < FB \/ FB + 23584 <= a -> a < curp \/ curp + 12 <= a -> m'' a = m' a) -> painted m''.
Proof. intros H K a A B. rewrite K by assumption. apply H; assumption. Qed.
Lemma inv_store fb' c' c'' m' k v : Inv fb' c' m' -> k + 4 <= 12 -> cursor_at (store32 m' (curp + k) v) curp c'' -> Inv fb' c'' (store32 m' (curp + k) v).
Proof.
  intros (A & B & D & E & F & G & H) Hk K. destruct G as (G1 & G2 & G3 & G4).
  split; [exact A|]. split; [eapply fb_other; [exact B|]; intros a X Y; apply store_other; unfold FB in *; lia|].
  split; [apply store_ok; exact D|]. split; [eapply statics_same; [exact E|]; intros a X Y; apply store_other; lia|].
  split; [exact K|]. split; [repeat split; rewrite load32_other by lia; assumption|].
  eapply painted_trans; [exact H|]. intros a X Y. apply store_other. lia.
Qed.
Lemma inv_x fb' c' m' v : Inv fb' c' m' -> v < W -> Inv fb' (Cursor (Pt v (cy c')) (line_height c')) (store32 m' curp v).
Proof.
  intros H K. rewrite <- (N.add_0_r curp) at 1. apply (inv_store _ c'); [exact H|lia|]. destruct H as (_ & _ & _ & _ & (F1 & F2 & F3) & _).
  rewrite N.add_0_r. repeat split; cbn [cx cy cpt line_height px py]; rewrite ?load32_other by lia; [apply load32_same; exact K|exact F2|exact F3].
Qed.
Lemma inv_y fb' c' m' v : Inv fb' c' m' -> v < W -> Inv fb' (Cursor (Pt (cx c') v) (line_height c')) (store32 m' (curp + 4) v).
Proof.
  intros H K. apply (inv_store _ c'); [exact H|lia|]. destruct H as (_ & _ & _ & _ & (F1 & F2 & F3) & _).
  repeat split; cbn [cx cy cpt line_height px py]; rewrite ?load32_other by lia; [exact F1|apply load32_same; exact K|exact F3].
Qed.
Lemma inv_h fb' c' m' v : Inv fb' c' m' -> v < W -> Inv fb' (Cursor (Pt (cx c') (cy c')) v) (store32 m' (curp + 8) v).
Proof.
  intros H K. apply (inv_store _ c'); [exact H|lia|]. destruct H as (_ & _ & _ & _ & (F1 & F2 & F3) & _).
  repeat split; cbn [cx cy cpt line_height px py]; rewrite ?load32_other by lia; [exact F1|exact F2|apply load32_same; exact K].
Qed.
Lemma inv_fb fb' fb'' c' m' m'' : Inv fb' c' m' -> is_frbuf fb'' -> fb_at m'' fb'' -> bytes_ok m'' -> same_but FB (FB + 23584) m' m'' -> Inv fb'' c' m''.
Proof.
  intros (A & B & D & E & F & G & H) A' B' D' S. destruct F as (F1 & F2 & F3), G as (G1 & G2 & G3 & G4).
  split; [exact A'|]. split; [exact B'|]. split; [exact D'|]. split; [exact (statics_fb _ _ E S)|].
  split; [repeat split; rewrite (same_load32 _ _ _ _ _ S) by (unfold FB; lia); assumption|].
  split; [repeat split; rewrite (same_load32 _ _ _ _ _ S) by (unfold FB; lia); assumption|].
  eapply painted_trans; [exact H|]. intros a X Y. apply S. exact X.
Qed.

Definition locs (l3 : N) (l : list N) : Prop := exists l1 l2 l4 l5 l7 l8 l9 l10 l11 l12 l13 l14 l15 l16 l17 l18 l19 l20 l21 l22 l23,
  l = [ret; l1; l2; l3; l4; l5; l6; l7; l8; l9; l10; l11; l12; l13; l14; l15; l16; l17; l18; l19; l20; l21; l22; l23].
Ltac locs := unfold locs, row_locals; do 21 eexists; reflexivity.

Variable C : outcome -> Prop.
Let X := xor_char wasm32 blitstr_fonts fb clip c s gs.
Hypothesis (HT : X = Panic -> C Trap).
Hypothesis (H0 : forall fb' c' m' l3 l, X = Ret (fb', c', Some 0) -> Inv fb' c' m' -> locs l3 l -> C (Branch 9 (St l g m' []))).
Hypothesis (H1 : forall fb' c' m' l, X = Ret (fb', c', Some bytes) -> Inv fb' c' m' -> locs bytes l -> C (Branch 10 (St l g m' []))).

(** After the rows: the cursor moves past the glyph *)
Lemma moved_code fb' c' m' w l1 l4 l7 l8 l10 l12 l13 l14 l15 l16 l17 l18 l19 l20 l21 l22 l23 :
  X = Ret (fb', Cursor (Pt (add32 (cx c') (add32 w 3)) (cy c')) (if line_height c' <? max_height gs then max_height gs else line_height c'), Some bytes) ->
  Inv fb' c' m' ->
  wp demo_env f27_322 (St [ret; l1; curp; bytes; l4; set_code gs; l6; l7; l8; cx c'; l10; w; l12; l13; l14; l15; l16; l17; l18; l19; l20; l21; l22; l23] g m' [])
    (WebasmLogic.after demo_env f27_329 [] (WebasmLogic.after demo_env f27_330 [] C)).
Proof.
  intros E H. crun. replace (add32 (add32 w (cx c')) 3) with (add32 (cx c') (add32 w 3)) by (rewrite (add32_comm w (cx c')), add32_assoc; reflexivity).
  set (x := add32 (cx c') (add32 w 3)) in *. eapply wp_store; [apply N.add_0_r|lia|].
  assert (I1 := inv_x _ _ _ x H (add32_lt _ _)). set (m1 := store32 m' curp x) in *. run.
  assert (K : forall l1, l1 = max_height gs -> wp demo_env f27_328 (St [ret; l1; curp; bytes; l4; set_code gs; l6; l7; l8; cx c'; l10; w; l12; l13; l14; l15; l16; l17; l18; l19; l20; l21; l22; l23] g m1 [])
    (WebasmLogic.after demo_env f27_329 [] (WebasmLogic.after demo_env f27_330 [] C))).
  { clear l1. intros l1 ->. crun. eapply wp_load; [exact (proj2 (proj2 (proj1 (proj2 (proj2 (proj2 (proj2 I1)))))))|lia|]. cbn [line_height]. run.
    apply wp_if; intros Z.
    - next. apply N.leb_le in Z. destruct (N.ltb_spec (line_height c') (max_height gs)) as [B|B]; [lia|].
      eapply H1; [exact E|exact I1|locs].
    - apply N.leb_gt in Z. destruct (N.ltb_spec (line_height c') (max_height gs)) as [B|B]; [|lia]. run.
      eapply wp_store; [reflexivity|lia|]. apply wp_br. next.
      eapply H1; [exact E|apply (inv_h _ _ _ (max_height gs) I1); destruct gs; reflexivity|locs]. }
  apply wp_block. unfold f27_323. apply wp_block. unfold f27_324. apply wp_block. crun.
  destruct gs; apply wp_br_table;
    match goal with |- context [Branch (nth ?a ?b ?c)] => let v := eval vm_compute in (nth a b c) in change (nth a b c) with v end; next;
    try (crun; first [apply wp_br|apply wp_nil]; next); apply K; reflexivity.
Qed.

Hypothesis (HI : Inv fb c m).
Hypothesis (Hclip : (LINES <? py (cmax clip)) || (WIDTH <? px (cmax clip)) || (px (cmax clip) <=? px (cmin clip)) = false).
Hypothesis (Hget : get_blit_pattern_offset (blitstr_fonts gs) s = Ret (Some (off, bytes))).
Hypothesis (Hoff : off < data_size gs).

Let h := load32 m (data_at gs + 4 * off).
Let w := N.land (ishr h 16) 255.
Let hh := N.land (ishr h 8) 255.
Let hy := N.land h 255.

Definition placed (c : cursor) (x0 : N) : res (frbuf * cursor * option N) :=
  let y0 := add32 (cy c) hy in
  if py (cmax clip) <? y0 then Ret (fb, c, Some 0)
  else
    fb <- for_n (N.to_nat (if add32 y0 hh <=? py (cmax clip) then hh else py (cmax clip) - y0)) 0
      (fun y => row (blitstr_fonts gs) (py (cmin clip)) off w x0 (y0 + y) (y * w)) fb ;;
    Ret (fb, Cursor (Pt (add32 (cx c) (add32 w 3)) (cy c)) (if line_height c <? max_height gs then max_height gs else line_height c), Some bytes).

Lemma h_lt : h < W. Proof. apply load32_lt. apply HI. Qed.
Lemma byte_lt a : N.land a 255 < 256. Proof. rewrite land255'. apply N.mod_lt. discriminate. Qed.

Lemma for_n_same {S} (P : S -> Prop) (f f' : N -> S -> res S) n : forall i s,
  (forall j s, i <= j -> j < i + N.of_nat n -> P s -> f j s = f' j s) ->
  (forall j s s', i <= j -> j < i + N.of_nat n -> P s -> f' j s = Ret s' -> P s') -> P s -> for_n n i f s = for_n n i f' s.
Proof.
  induction n as [|n IH]; intros i t H K Ht; cbn [for_n]; [reflexivity|]. rewrite H by (lia || exact Ht).
  destruct (f' i t) as [t'|] eqn:E; [|reflexivity]. cbn [bind]. apply IH; [| |apply (K i t); (lia || assumption)].
  - intros j u A B. apply H; lia.
  - intros j u u' A B. apply K; lia.
Qed.
Lemma row_frbuf m' ymin x0 yy o b b' : statics m' -> bytes_ok m' -> is_frbuf b -> row (blitstr_fonts gs) ymin off w x0 yy o b = Ret b' -> is_frbuf b'.
Proof.
  intros Hs Hk Hb. unfold row. destruct (yy <? ymin); [intros E; injection E as <-; exact Hb|].
  destruct (pattern _ _ _ _) as [p|] eqn:P; [|discriminate]. assert (Hp := pattern_lt _ _ _ _ _ _ Hs Hk P). cbn [bind]. cbv zeta. set (i := yy * 11 + x0 / 32).
  destruct (N.ltb_spec 5895 i) as [A|A]; [discriminate|].
  assert (F1 : is_frbuf (upd b (N.to_nat i) (N.lxor (nth (N.to_nat i) b 0) (ishl p (x0 mod 32))))).
  { apply upd_frbuf; [exact Hb|]. apply (lxor_lt _ _ 32); [apply fb_word_lt; [exact Hb|lia]|apply ishl_lt]. }
  destruct (w <=? _); [intros E; injection E as <-; exact F1|]. set (j := yy * 11 + add32 x0 w / 32).
  destruct (N.ltb_spec 5895 j) as [B|B]; [discriminate|]. intros E; injection E as <-. apply upd_frbuf; [exact F1|].
  apply (lxor_lt _ _ 32); [apply fb_word_lt; [exact F1|lia]|apply ishr_lt; exact Hp].
Qed.

Definition moved_in : cursor := if cx c <? px (cmin clip) then Cursor (Pt (px (cmin clip)) (cy c)) (line_height c) else c.
Definition next_line : cursor :=
  Cursor (Pt (px (cmin clip)) (add32 (cy c) (add32 (if line_height c <? 24 then 24 else line_height c) 1))) 0.
Lemma cmax_y : py (cmax clip) <= 536.
Proof. revert Hclip. change LINES with 536. destruct (N.ltb_spec 536 (py (cmax clip))); [discriminate|]. intros _. assumption. Qed.

Lemma xor_char_eq : X =
  if 32 <? w then Ret (fb, c, Some 0)
  else
    if px (cmax clip) <=? add32 (add32 (add32 (cx moved_in) 1) w) 2 then placed next_line (add32 (px (cmin clip)) 1)
    else placed moved_in (add32 (cx moved_in) 1).
Proof.
  unfold X, xor_char. rewrite Hclip, Hget. cbn [bind]. unfold header. rewrite (data_get m gs off) by apply HI.
  destruct (N.ltb_spec off (data_size gs)) as [_|B]; [|lia]. cbn [bind]. fold h.
  replace (N.shiftr (w32 (N.shiftl h 8)) 24) with w by (symmetry; apply (byte_up h 16); lia).
  replace (N.shiftr (w32 (N.shiftl h 16)) 24) with hh by (symmetry; apply (byte_up h 8); lia). cbn [gw gh gy]. fold hy.
  destruct (N.ltb_spec 32 w) as [A|A]; [reflexivity|].
  assert (P : forall c' x0, x0 < W ->
    (x1 <- uadd wasm32 x0 w ;;
     (let lo := ushr5 x0 in
      let hi := ushr5 x1 in
      px_lo <- usub wasm32 32 (uand1f x0) ;;
      y0 <- uadd wasm32 (cy c') hy ;;
      (if py (cmax clip) <? y0
       then Ret (fb, c', Some 0)
       else
        e <- uadd wasm32 y0 hh ;;
        y_max <- (if e <=? py (cmax clip) then Ret hh else usub wasm32 (py (cmax clip)) y0) ;;
        fb0 <- for_range 0 y_max (xor_row wasm32 (blitstr_fonts gs) clip off w lo hi px_lo y0) fb ;;
        width <- uadd wasm32 w 3 ;;
        x <- uadd wasm32 (cx c') width ;;
        (let font_line_height := f_max_height (blitstr_fonts gs) in
         let lh := if line_height c' <? font_line_height then font_line_height else line_height c' in
         Ret (fb0, Cursor (Pt x (cy c')) lh, Some bytes))))) = placed c' x0).
  { intros c' x0 Hx. unfold placed. rewrite uadd_wrap. cbn [bind]. cbv zeta. rewrite uand1f_mod.
    assert (R : x0 mod 32 < 32) by (apply N.mod_lt; discriminate). rewrite usub_wrap, sub32_small by (unfold W; lia). cbn [bind].
    rewrite uadd_wrap. cbn [bind]. set (y0 := add32 (cy c') hy). assert (M := cmax_y). destruct (N.ltb_spec (py (cmax clip)) y0) as [B|B]; [reflexivity|].
    assert (hh < 256) by apply byte_lt.
    rewrite uadd_wrap. cbn [bind]. rewrite (add32_small y0 hh) by (unfold W; lia).
    assert (E : (if y0 + hh <=? py (cmax clip) then Ret hh else usub wasm32 (py (cmax clip)) y0) = Ret (if y0 + hh <=? py (cmax clip) then hh else py (cmax clip) - y0)).
    { destruct (y0 + hh <=? py (cmax clip)); [reflexivity|]. rewrite usub_wrap, sub32_small by (unfold W; lia). reflexivity. }
    rewrite E. cbn [bind]. unfold for_range. rewrite N.sub_0_r.
    set (n := if y0 + hh <=? py (cmax clip) then hh else py (cmax clip) - y0).
    assert (Hn : n < 256) by (unfold n; destruct (N.leb_spec (y0 + hh) (py (cmax clip))); lia).
    rewrite (for_n_same is_frbuf _ (fun y => row (blitstr_fonts gs) (py (cmin clip)) off w x0 (y0 + y) (y * w))).
    - destruct (for_n _ _ _ _) as [b|]; [|reflexivity]. cbn [bind]. rewrite !uadd_wrap. cbn [bind]. rewrite uadd_wrap. cbn [bind]. rewrite max_height_eq. reflexivity.
    - intros j b _ Hj Hb. apply (xor_row_eq m); try assumption; try apply HI; lia.
    - intros j b b' _ Hj Hb. apply (row_frbuf m); try assumption; apply HI.
    - apply HI. }
  fold moved_in. rewrite uadd_wrap. cbn [bind]. rewrite uadd_wrap. cbn [bind]. rewrite uadd_wrap. cbn [bind].
  set (e := add32 (add32 (add32 (cx moved_in) 1) w) 2). destruct (px (cmax clip) <=? e).
  - unfold newline. rewrite uadd_wrap. cbn [bind]. rewrite uadd_wrap. cbn [bind cx px cpt]. rewrite uadd_wrap. cbn [bind].
    etransitivity; [apply P; apply add32_lt|]. f_equal. unfold next_line. rewrite max_height_eq. cbn [max_height].
    unfold moved_in. destruct (cx c <? px (cmin clip)); reflexivity.
  - cbn [bind]. apply P. apply add32_lt.
Qed.

Lemma set_and : N.land (set_code gs) 255 = set_code gs. Proof. destruct gs; reflexivity. Qed.

Lemma rows_mod : ishr h 16 mod 32 = w mod 32.
Proof.
  unfold w. rewrite land255'. rewrite (N.div_mod (ishr h 16) 256) at 1 by discriminate.
  replace (256 * (ishr h 16 / 256) + ishr h 16 mod 256) with (ishr h 16 mod 256 + 8 * (ishr h 16 / 256) * 32) by lia.
  apply N.mod_add. discriminate.
Qed.

Lemma placed_code c' x0 m' l10 l17 l18 l19 l20 l21 l22 l23 : X = placed c' x0 -> Inv fb c' m' -> x0 < W -> w <= 32 ->
  wp demo_env f27_312 (St [ret; clipp; curp; bytes; h; set_code gs; l6; py (cmax clip); cy c'; cx c'; l10; w; set_code gs; x0; off; hy; ishr h 16;
    l17; l18; l19; l20; l21; l22; l23] g m' []) C.
Proof.
  intros E I Hx Hw. unfold placed in E. rewrite (add32_comm (cy c')) in E. crun. set (y0 := add32 hy (cy c')) in *. cbv zeta in E.
  assert (M := cmax_y). assert (Hhh : hh < 256) by apply byte_lt. assert (Hww : w < 256) by apply byte_lt.
  apply wp_if; intros Z; rewrite Z in E; [eapply H0; [exact E|exact I|locs]|].
  apply N.ltb_ge in Z. run. apply wp_block. unfold f27_313. apply wp_block. unfold f27_314. apply wp_block. crun. fold hh.
  rewrite (sub32_small (py (cmax clip)) y0), (add32_small hh y0) by (unfold W; lia).
  rewrite (add32_small y0 hh) in E by (unfold W; lia). rewrite (N.add_comm hh).
  set (n := if y0 + hh <=? py (cmax clip) then hh else py (cmax clip) - y0) in *.
  assert (Hn : n <= hh /\ y0 + n <= py (cmax clip)) by (unfold n; destruct (N.leb_spec (y0 + hh) (py (cmax clip))); lia).
  match goal with |- context [IBrIf 0] => idtac end.
  assert (En : (if b2n (py (cmax clip) <? y0 + hh) =? 0 then hh else py (cmax clip) - y0) = n).
  { unfold n. rewrite (N.leb_antisym (py (cmax clip)) (y0 + hh)). destruct (py (cmax clip) <? y0 + hh); reflexivity. }
  rewrite En. assert (X0 : x0 / 32 < 134217728) by (apply N.div_lt_upper_bound; [discriminate|]; exact Hx).
  assert (X1 : add32 x0 w / 32 < 134217728) by (apply N.div_lt_upper_bound; [discriminate|]; apply (add32_lt x0 w)).
  assert (R : x0 mod 32 < 32) by (apply N.mod_lt; discriminate).
  apply wp_if; intros Zn.
  - apply N.eqb_eq in Zn. rewrite Zn in E. cbn [N.to_nat for_n bind] in E. next. apply (moved_code fb c'); assumption.
  - apply N.eqb_neq in Zn. run.
    assert (E15 : (if b2n (py (cmax clip) <? y0 + hh) =? 0 then y0 + hh else py (cmax clip)) = y0 + n).
    { rewrite <- En. destruct (N.ltb_spec (py (cmax clip)) (y0 + hh)); cbn [b2n N.eqb]; lia. }
    rewrite E15. clear E15 En. rewrite !(ishr_div5 x0), !(ishr_div5 (add32 x0 w)), (land31 x0).
    rewrite (mul32_small y0 44), (mul32_small y0 11) by (unfold W; lia).
    rewrite (ishl2_small (x0 / 32)), (ishl2_small (add32 x0 w / 32)) by (unfold W; lia).
    rewrite (sub32_small 32 (x0 mod 32)) by (unfold W; lia).
    rewrite (add32_small (y0 * 44) (4 * (x0 / 32))), (add32_small (y0 * 44) (4 * (add32 x0 w / 32))) by (unfold W; lia).
    rewrite (add32_small (x0 / 32)), (add32_small (add32 x0 w / 32)) by (unfold W; lia).
    eapply wp_load; [exact (proj1 (proj2 (proj1 (proj2 (proj2 (proj2 (proj2 (proj2 I))))))))|lia|]. run.
    assert (NE : exists n', N.to_nat n = Datatypes.S n' /\ n = N.of_nat n' + 1) by (exists (N.to_nat (n - 1)); lia).
    destruct NE as (n' & NE & NE'). rewrite NE in E. destruct I as (I1 & I2 & I3 & I4 & I5).
    assert (Hlt : ishr h 16 < W) by (apply ishr_lt; apply h_lt).
    assert (RC := rows_code gs off w x0 (py (cmin clip)) ret curp bytes (set_code gs) l6 (ishr h 16) (y0 + n) g Hw Hx Hlt rows_mod
      n' y0 0 m' fb clipp l22 l23 (WebasmLogic.after demo_env f27_322 [] (WebasmLogic.after demo_env f27_329 [] (WebasmLogic.after demo_env f27_330 [] C)))
      I4 I3 I2 I1 ltac:(lia) ltac:(nia) ltac:(lia)).
    unfold row_locals in RC at 3. rewrite (N.mul_comm y0 44), (N.add_comm (x0 / 32)), (N.add_comm (add32 x0 w / 32)). apply RC. clear RC.
    change (for_n (Datatypes.S n') 0 (fun y => row (blitstr_fonts gs) (py (cmin clip)) off w x0 (y0 + y) (0 + y * w)) fb) with
      (for_n (Datatypes.S n') 0 (fun y => row (blitstr_fonts gs) (py (cmin clip)) off w x0 (y0 + y) (y * w)) fb).
    destruct (for_n (Datatypes.S n') 0 _ fb) as [fb'|]; cbn [bind] in E.
    + intros m'' k1 k4 k7 k8 k9 k10 k13 k22 k23 F A O S. assert (I' := inv_fb fb fb' c' m' m'' (conj I1 (conj I2 (conj I3 (conj I4 I5)))) F A O S).
      crun. eapply wp_load; [rewrite N.add_0_r; exact (proj1 (proj1 (proj2 (proj2 (proj2 (proj2 I'))))))|lia|]. run. apply wp_nil. next.
      apply (moved_code fb' c'); assumption.
    + split; [exact (HT E)|]. intros m'' yy o k1 k22 k23. unfold row_locals. split; next; crun; apply wp_panic6; next; exact (HT E).
Qed.

Lemma paint_code l4 l11 l13 l15 l16 l17 l18 l19 l20 l21 l22 l23 :
  wp demo_env f27_305 (St [ret; clipp; curp; bytes; l4; set_code gs; l6; py (cmax clip); px (cmax clip); px (cmin clip); data_at gs + 4 * off; l11;
    set_code gs; l13; off; l15; l16; l17; l18; l19; l20; l21; l22; l23] g m [])
    (WebasmLogic.after demo_env f27_308 [] (WebasmLogic.after demo_env f27_309 [] (WebasmLogic.after demo_env f27_312 [] C))).
Proof.
  assert (Df := data_fits gs). assert (E := xor_char_eq). crun. eapply wp_load; [rewrite N.add_0_r; reflexivity|lia|]. fold h. run. fold w.
  assert (Hmin : px (cmin clip) < W) by (destruct HI as (_ & _ & A & _ & _ & (B & _) & _); rewrite <- B; apply load32_lt; exact A).
  apply wp_if; intros Z; rewrite Z in E; [next; eapply H0; [exact E|exact HI|locs]|]. apply N.ltb_ge in Z. run.
  assert (K : forall m' l10, l10 = cx moved_in -> Inv fb moved_in m' ->
    wp demo_env f27_307 (St [ret; clipp; curp; bytes; h; set_code gs; l6; py (cmax clip); px (cmax clip); px (cmin clip); l10; w;
      set_code gs; l13; off; l15; ishr h 16; l17; l18; l19; l20; l21; l22; l23] g m' [])
    (WebasmLogic.after demo_env f27_308 [] (WebasmLogic.after demo_env f27_309 [] (WebasmLogic.after demo_env f27_312 [] C)))).
  { intros m' l10 -> I. assert (I' := I). destruct I' as (_ & _ & _ & _ & (I1 & I2 & I3) & _). crun. rewrite (add32_comm w (add32 (cx moved_in) 1)).
    fold hy. apply wp_if; intros Y; rewrite Y in E.
    - next. crun. eapply wp_store; [apply N.add_0_r|lia|]. assert (J1 := inv_x _ _ _ _ I Hmin). set (m1 := store32 m' curp (px (cmin clip))) in *.
      apply wp_block. crun. assert (J1' := J1). destruct J1' as (_ & _ & _ & _ & (J11 & J12 & J13) & _). cbn [line_height] in J13.
      assert (L : line_height moved_in = line_height c /\ cy moved_in = cy c) by (unfold moved_in; destruct (cx c <? px (cmin clip)); split; reflexivity).
      destruct L as (L1 & L2). rewrite L1, L2 in *.
      eapply wp_load; [exact J13|lia|]. run.
      assert (K2 : forall m2 lh' c2, Inv fb c2 m2 -> cpt c2 = Pt (px (cmin clip)) (cy c) -> lh' = (if line_height c <? 24 then 24 else line_height c) ->
        wp demo_env f27_311 (St [ret; clipp; curp; bytes; h; set_code gs; l6; py (cmax clip); px (cmax clip); px (cmin clip); lh'; w;
          set_code gs; add32 (cx moved_in) 1; off; hy; ishr h 16; l17; l18; l19; l20; l21; l22; l23] g m2 []) (WebasmLogic.after demo_env f27_312 [] C)).
      { intros m2 lh' c2 J2 Ec Elh. destruct c2 as [pt2 lh2]. cbn [cpt] in Ec. subst pt2. crun.
        eapply wp_store; [reflexivity|lia|]. assert (J3 := inv_h _ _ _ 0 J2 ltac:(reflexivity)). cbn [cx cy cpt px py] in J3.
        set (m3 := store32 m2 (curp + 8) 0) in *. run. assert (J3' := J3). destruct J3' as (_ & _ & _ & _ & (_ & J32 & _) & _).
        eapply wp_load; [exact J32|lia|]. run.
        eapply wp_store; [reflexivity|lia|].
        set (y := add32 (add32 lh' (cy {| cpt := {| px := px (cmin clip); py := cy c |}; line_height := 0 |})) 1).
        assert (Ey : y = add32 (cy c) (add32 lh' 1)) by (unfold y; cbn [cy cpt py]; rewrite (add32_comm lh' (cy c)), add32_assoc; reflexivity).
        assert (J4 := inv_y _ _ _ y J3 (add32_lt _ _)). cbn [cx cy cpt px line_height] in J4. fold (cx (Cursor (Pt (px (cmin clip)) y) 0)) in J4. run. apply wp_nil. next.
        assert (En : next_line = Cursor (Pt (px (cmin clip)) y) 0) by (unfold next_line; rewrite Ey, Elh; reflexivity).
        rewrite En in E. apply (placed_code (Cursor (Pt (px (cmin clip)) y) 0)); try assumption. apply add32_lt. }
      apply wp_if; intros V.
      + apply N.ltb_lt in V. next. eapply K2; [exact J1|reflexivity|]. destruct (N.ltb_spec (line_height c) 24); [lia|reflexivity].
      + apply N.ltb_ge in V. run. eapply wp_store; [reflexivity|lia|]. apply wp_nil. next.
        eapply K2; [apply (inv_h _ _ _ 24 J1); reflexivity|reflexivity|]. destruct (N.ltb_spec (line_height c) 24); [reflexivity|lia].
    - run. eapply wp_load; [exact I2|lia|]. run. apply wp_br. next. apply placed_code; try assumption. apply add32_lt. }
  apply wp_block. crun. assert (I' := HI). destruct I' as (_ & _ & _ & _ & (I1 & I2 & I3) & _).
  eapply wp_load; [rewrite N.add_0_r; exact I1|lia|]. run. rewrite N.leb_antisym. unfold moved_in in K.
  apply wp_if; intros V; [apply Bool.negb_true_iff in V|apply Bool.negb_false_iff in V].
  - next. rewrite V in K. apply K; [reflexivity|exact HI].
  - run. eapply wp_store; [apply N.add_0_r|lia|]. run. apply wp_nil. next. rewrite V in K. apply K; [reflexivity|]. apply inv_x; assumption.
Qed.
End Paint.
