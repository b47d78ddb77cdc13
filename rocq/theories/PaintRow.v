(** * Glyph rows: unpacking bits and XORing them into the frame buffer *)
From Coq Require Import ZArith.
From Verif Require Export FbFacts Str FontDefs Blit SpecPaint.

(** ** Font data *)
Lemma pieces_cons p rest :
  pieces_ok (p :: rest) ->
  (length p <= 512)%nat /\ (rest <> [] -> length p = 512%nat) /\ pieces_ok rest.
Proof.
  destruct rest as [|q r]; simpl.
  - intros H; split; [exact H|split; [congruence|exact I]].
  - intros [H1 H2]; split; [lia|split; [auto|exact H2]].
Qed.

Lemma bigarr_nth a i : pieces_ok a -> (i < length (concat a))%nat ->
  exists piece, nth_error a (i / 512) = Some piece /\
    nth_error piece (i mod 512) = Some (nth i (concat a) 0).
Proof.
  revert i; induction a as [|p rest IH]; intros i Hp Hi; simpl in Hi; [lia|].
  destruct (pieces_cons p rest Hp) as (Hl & Hfull & Hrest).
  simpl concat. rewrite app_length in Hi.
  destruct (Nat.lt_ge_cases i (length p)) as [Hlt|Hge].
  - rewrite app_nth1 by assumption.
    rewrite Nat.div_small, Nat.mod_small by lia.
    exists p; split; [reflexivity|apply nth_error_nth'; assumption].
  - rewrite app_nth2 by assumption.
    destruct rest as [|q r]; [simpl in Hi; lia|].
    assert (Hp512 : length p = 512%nat) by (apply Hfull; discriminate).
    destruct (IH (i - length p)%nat Hrest) as (piece & E1 & E2); [lia|].
    exists piece. rewrite Hp512 in *.
    replace i with ((i - 512) + 1 * 512)%nat at 1 2 by lia.
    rewrite Nat.div_add, Nat.mod_add by discriminate.
    rewrite Nat.add_1_r. split; [exact E1|exact E2].
Qed.

Lemma bigarr_get_ok a i :
  pieces_ok a -> i < N.of_nat (length (concat a)) ->
  bigarr_get a i = Ret (nth (N.to_nat i) (concat a) 0).
Proof.
  intros Hp Hi. destruct (bigarr_nth a (N.to_nat i) Hp) as (piece & E1 & E2); [lia|].
  unfold bigarr_get.
  replace (N.to_nat (N.shiftr i 9)) with (N.to_nat i / 512)%nat.
  2:{ rewrite N.shiftr_div_pow2. change (2 ^ 9) with 512. rewrite Nnat.N2Nat.inj_div. reflexivity. }
  rewrite E1. unfold aget. change 0x1ff with (N.ones 9). rewrite N.land_ones.
  change (2 ^ 9) with 512. rewrite Nnat.N2Nat.inj_mod. change (N.to_nat 512) with 512%nat.
  rewrite E2. reflexivity.
Qed.

Lemma font_word_get f i :
  font_ok f -> i < N.of_nat (length (concat (f_data f))) ->
  bigarr_get (f_data f) i = Ret (font_word f i).
Proof. intros Hf Hi; apply bigarr_get_ok; [apply Hf|exact Hi]. Qed.

Lemma font_word_lt f i : font_ok f -> font_word f i < 2 ^ 32.
Proof.
  intros Hf. unfold font_word.
  destruct (Nat.lt_ge_cases (N.to_nat i) (length (concat (f_data f)))) as [H|H].
  - apply (Forall_nth_in (fun w => w < 2 ^ 32)); [apply Hf|exact H].
  - rewrite nth_overflow by assumption. reflexivity.
Qed.

Lemma header_spec f off :
  font_ok f -> glyph_ok f off ->
  header f off = Ret (GlyphHeader (gl_w f off) (gl_h f off) (gl_y f off)).
Proof.
  intros Hf Hg. unfold header.
  rewrite font_word_get by (assumption || (pose proof (go_data f off Hg); lia)).
  cbn [bind]. unfold gl_w, gl_h, gl_y.
  set (h := font_word f off).
  f_equal. f_equal.
  - apply N.bits_inj; intros i. rewrite N.shiftr_spec', w32_testbit, shiftl_testbit.
    change 256 with (2 ^ 8). change 65536 with (2 ^ 16). rewrite <- N.shiftr_div_pow2.
    destruct (N.lt_ge_cases i 8) as [Hi|Hi].
    + rewrite N.mod_pow2_bits_low, N.shiftr_spec' by assumption.
      replace (i + 24 - 8) with (i + 16) by lia.
      replace (i + 24 <? 32) with true by lia. replace (8 <=? i + 24) with true by lia. reflexivity.
    + rewrite N.mod_pow2_bits_high by assumption. replace (i + 24 <? 32) with false by lia. reflexivity.
  - apply N.bits_inj; intros i. rewrite N.shiftr_spec', w32_testbit, shiftl_testbit.
    change 256 with (2 ^ 8). rewrite <- N.shiftr_div_pow2.
    destruct (N.lt_ge_cases i 8) as [Hi|Hi].
    + rewrite N.mod_pow2_bits_low, N.shiftr_spec' by assumption.
      replace (i + 24 - 16) with (i + 8) by lia.
      replace (i + 24 <? 32) with true by lia. replace (16 <=? i + 24) with true by lia. reflexivity.
    + rewrite N.mod_pow2_bits_high by assumption. replace (i + 24 <? 32) with false by lia. reflexivity.
  - change 0xff with (N.ones 8). rewrite N.land_ones. reflexivity.
Qed.

(** ** row_pattern *)
Lemma row_pattern_spec m f off r :
  cfg_ok m -> font_ok f -> glyph_ok f off -> r < gl_h f off ->
  exists p, row_pattern m f off (gl_w f off) r = Ret p /\ p < 2 ^ gl_w f off /\
    forall i, i < gl_w f off -> N.testbit p i = glyph_pixel f off i r.
Proof.
  intros Hm Hf Hg Hr. pose proof (limit_ge m Hm) as HL.
  pose proof (go_w f off Hg) as Hw. pose proof (go_data f off Hg) as Hd.
  pose proof (fo_size f Hf) as Hsz. change (2 ^ 31) with 2147483648 in Hsz.
  assert (Hh : gl_h f off < 256) by (unfold gl_h; apply N.mod_lt; discriminate).
  unfold glyph_pixel, stream_bit. set (w := gl_w f off) in *. set (h := gl_h f off) in *.
  assert (Hrw : r * w + w <= w * h) by nia.
  assert (Hhi : w * h <= 32 * 256) by nia.
  unfold row_pattern, nth_word.
  rewrite umul_ok by lia. cbn [bind]. rewrite uand1f_mod, ushr5_div.
  set (q := r * w) in *. clearbody q.
  rewrite uadd_ok by lia. cbn [bind].
  rewrite usub_ok by lia. cbn [bind].
  rewrite uadd_ok by lia. cbn [bind].
  rewrite font_word_get by (assumption || lia). cbn [bind].
  rewrite usub_ok by lia. cbn [bind].
  rewrite shl32_ok by lia. cbn [bind].
  rewrite usub_ok by lia. cbn [bind].
  rewrite shr32_ok by lia. cbn [bind].
  set (wd := font_word f (off + (1 + q / 32))).
  set (p1 := N.shiftr _ (32 - w)).
  assert (Hp1 : forall i, N.testbit p1 i =
     (i <? w) && (w + q mod 32 <=? i + 32) && N.testbit wd (i + 32 - w - q mod 32)).
  { intros i. unfold p1. rewrite N.shiftr_spec', w32_testbit, shiftl_testbit.
    replace (32 - (32 - q mod 32)) with (q mod 32) by lia.
    replace (i + (32 - w) - q mod 32) with (i + 32 - w - q mod 32) by lia.
    rewrite andb_assoc. f_equal. lia. }
  clearbody p1.
  destruct (N.ltb_spec (32 - q mod 32) w) as [Hspan|Hspan].
  - rewrite usub_ok by lia. cbn [bind].
    rewrite uadd_ok by lia. cbn [bind].
    rewrite uadd_ok by lia. cbn [bind].
    rewrite font_word_get by (assumption || lia). cbn [bind].
    rewrite usub_ok by lia. cbn [bind].
    rewrite shr32_ok by lia. cbn [bind].
    set (wd2 := font_word f (off + (1 + q / 32 + 1))).
    assert (Hwd2 : wd2 < 2 ^ 32) by (apply font_word_lt; assumption).
    eexists; split; [reflexivity|].
    assert (Hb : forall i, N.testbit (N.lor p1 (N.shiftr wd2 (32 - (w - (32 - q mod 32))))) i =
       (i <? w) && (w + q mod 32 <=? i + 32) && N.testbit wd (i + 32 - w - q mod 32)
       || N.testbit wd2 (i + (64 - w - q mod 32))).
    { intros i. rewrite N.lor_spec, Hp1, N.shiftr_spec'. f_equal. f_equal. lia. }
    split.
    + apply lt_pow2_of_testbit; intros i Hi. rewrite Hb.
      rewrite (testbit_high wd2 32) by (assumption || lia).
      replace (i <? w) with false by lia. reflexivity.
    + intros i Hi. rewrite Hb.
      destruct (N.le_gt_cases (w + q mod 32) (i + 32)) as [Hc|Hc].
      * replace (off + 1 + (q + (w - 1 - i)) / 32) with (off + (1 + q / 32)) by lia. fold wd.
        rewrite (testbit_high wd2 32) by (assumption || lia). rewrite orb_false_r.
        replace (i <? w) with true by lia. replace (w + q mod 32 <=? i + 32) with true by lia.
        simpl. f_equal. lia.
      * replace (off + 1 + (q + (w - 1 - i)) / 32) with (off + (1 + q / 32 + 1)) by lia. fold wd2.
        replace (w + q mod 32 <=? i + 32) with false by lia. rewrite andb_false_r. simpl.
        f_equal. lia.
  - eexists; split; [reflexivity|]. split.
    + apply lt_pow2_of_testbit; intros i Hi. rewrite Hp1.
      replace (i <? w) with false by lia. reflexivity.
    + intros i Hi. rewrite Hp1.
      replace (off + 1 + (q + (w - 1 - i)) / 32) with (off + (1 + q / 32)) by lia. fold wd.
      replace (i <? w) with true by lia. replace (w + q mod 32 <=? i + 32) with true by lia.
      simpl. f_equal. lia.
Qed.

(** ** The frame buffer as one line of 5896*32 pixels *)
Definition lbit (fb : frbuf) (a : N) : bool :=
  N.testbit (nth (N.to_nat (a / 32)) fb 0) (a mod 32).

Lemma pixel_lbit fb x y : pixel fb x y = lbit fb (y * 352 + x).
Proof.
  unfold pixel, lbit, WORDS_PER_LINE. f_equal; [|lia]. f_equal. lia.
Qed.

Lemma lbit_upd fb i v a :
  is_frbuf fb -> i < 5896 ->
  lbit (upd fb (N.to_nat i) v) a = if a / 32 =? i then N.testbit v (a mod 32) else lbit fb a.
Proof.
  intros H Hi. unfold lbit. rewrite upd_nth by (rewrite (frbuf_length fb H); lia).
  destruct (Nat.eqb_spec (N.to_nat (a / 32)) (N.to_nat i)) as [E|E];
  destruct (N.eqb_spec (a / 32) i) as [E1|E1]; try reflexivity; lia.
Qed.

Lemma for_n_last {S} (body : N -> S -> res S) n i st :
  for_n (Datatypes.S n) i body st = (st' <- for_n n i body st ;; body (i + N.of_nat n) st').
Proof.
  revert i st; induction n as [|n IH]; intros i st.
  - simpl. rewrite N.add_0_r. destruct (body i st); reflexivity.
  - change (for_n (Datatypes.S (Datatypes.S n)) i body st)
      with (st' <- body i st ;; for_n (Datatypes.S n) (i + 1) body st').
    cbn [for_n]. destruct (body i st) as [st'|]; [|reflexivity]. cbn [bind].
    change (st'0 <- body (i + 1) st' ;; for_n n (i + 1 + 1) body st'0) with (for_n (Datatypes.S n) (i + 1) body st').
    rewrite IH. replace (i + N.of_nat (Datatypes.S n)) with (i + 1 + N.of_nat n) by lia. reflexivity.
Qed.

Lemma for_range_last {S} (body : N -> S -> res S) hi st : 0 < hi ->
  for_range 0 hi body st = (st' <- for_range 0 (hi - 1) body st ;; body (hi - 1) st').
Proof.
  intros H. unfold for_range. replace (N.to_nat (hi - 0)) with (Datatypes.S (N.to_nat (hi - 1 - 0))) by lia.
  rewrite for_n_last. replace (0 + N.of_nat (N.to_nat (hi - 1 - 0))) with (hi - 1) by lia. reflexivity.
Qed.

Section XorRow.
  Context (m : cfg) (Hm : cfg_ok m) (f : font) (Hf : font_ok f) (off : N) (Hg : glyph_ok f off).
  Context (clip : cliprect) (x0 y0 : N).
  Hypothesis Hx0 : x0 <= 336.
  Let w := gl_w f off.

  Lemma xor_row_spec r fb :
    is_frbuf fb -> r < gl_h f off -> y0 + r < 536 ->
    (x0 + w <= 352 \/ y0 + r < 535 \/ y0 + r < py (cmin clip)) ->
    exists fb',
      xor_row m f clip off w (x0 / 32) ((x0 + w) / 32) (32 - x0 mod 32) y0 r fb = Ret fb' /\
      is_frbuf fb' /\
      forall a, lbit fb' a = xorb (lbit fb a)
        ((py (cmin clip) <=? y0 + r) && (((y0 + r) * 352 + x0 <=? a) && (a <? (y0 + r) * 352 + x0 + w))
         && glyph_pixel f off (a - ((y0 + r) * 352 + x0)) r).
  Proof.
    intros Hfb Hr Hy Hfit. pose proof (limit_ge m Hm) as HL.
    pose proof (go_w f off Hg) as Hw. fold w in Hw.
    unfold xor_row. rewrite uadd_ok by lia. cbn [bind].
    destruct (N.ltb_spec (y0 + r) (py (cmin clip))) as [Htop|Htop].
    - exists fb; split; [reflexivity|split; [assumption|]]. intros a.
      replace (py (cmin clip) <=? y0 + r) with false by lia. simpl. rewrite xorb_false_r; reflexivity.
    - destruct (row_pattern_spec m f off r Hm Hf Hg Hr) as (p & Ep & Hp & Hbits). fold w in Ep, Hp, Hbits.
      rewrite Ep. cbn [bind]. unfold WORDS_PER_LINE.
      rewrite umul_ok by lia. cbn [bind]. rewrite uadd_ok by lia. cbn [bind].
      rewrite usub_ok by lia. cbn [bind]. rewrite shl32_ok by lia. cbn [bind].
      replace (32 - (32 - x0 mod 32)) with (x0 mod 32) by lia.
      rewrite fb_aget by (assumption || lia). cbn [bind].
      rewrite fb_aset by (assumption || lia). cbn [bind].
      set (B := (y0 + r) * 352 + x0).
      assert (HB : B / 32 = (y0 + r) * 11 + x0 / 32 /\ B mod 32 = x0 mod 32) by lia.
      set (v1 := N.lxor _ _).
      assert (Hpb : forall k, N.testbit p k = (k <? w) && glyph_pixel f off k r).
      { intros k. destruct (N.ltb_spec k w); simpl; [apply Hbits; assumption|].
        apply (testbit_high p w); assumption. }
      assert (Hp32 : p < 2 ^ 32).
      { apply lt_pow2_of_testbit; intros i Hi; rewrite Hpb. replace (i <? w) with false by lia. reflexivity. }
      assert (Hv1 : v1 < 2 ^ 32).
      { apply lxor_lt; [apply fb_word_lt; [assumption|lia]|apply w32_lt]. }
      set (fb1 := upd fb _ v1).
      assert (Hfb1 : is_frbuf fb1) by (apply upd_frbuf; assumption).
      assert (H1 : forall a, lbit fb1 a = xorb (lbit fb a)
         ((a / 32 =? B / 32) && ((B <=? a) && (a <? B + w)) && glyph_pixel f off (a - B) r)).
      { intros a. unfold fb1. rewrite lbit_upd by (assumption || lia).
        rewrite (proj1 HB).
        destruct (N.eqb_spec (a / 32) ((y0 + r) * 11 + x0 / 32)) as [E|E]; simpl;
          [|rewrite xorb_false_r; reflexivity].
        unfold v1. rewrite N.lxor_spec, w32_testbit, shiftl_testbit, Hpb.
        unfold lbit. rewrite E. f_equal.
        replace (a mod 32 <? 32) with true by lia. simpl.
        rewrite andb_assoc.
        replace (a mod 32 - x0 mod 32) with (a - B) by lia.
        f_equal. lia. }
      clearbody fb1 v1.
      destruct (N.ltb_spec (32 - x0 mod 32) w) as [Hspan|Hspan].
      + rewrite uadd_ok by lia. cbn [bind]. rewrite shr32_ok by lia. cbn [bind].
        rewrite fb_aget by (assumption || lia). cbn [bind].
        rewrite fb_aset by (assumption || lia).
        eexists; split; [reflexivity|]. split.
        { apply upd_frbuf; [assumption|]. apply lxor_lt; [apply fb_word_lt; [assumption|lia]|].
          apply shiftr_lt; assumption. }
        intros a. rewrite lbit_upd by (assumption || lia).
        replace (py (cmin clip) <=? y0 + r) with true by lia. cbn [andb]. fold B.
        destruct (N.eqb_spec (a / 32) ((y0 + r) * 11 + (x0 + w) / 32)) as [E|E].
        * rewrite N.lxor_spec, N.shiftr_spec', Hpb.
          replace (N.testbit (nth _ fb1 0) (a mod 32)) with (lbit fb1 a)
            by (unfold lbit; rewrite E; reflexivity).
          rewrite H1. replace (a / 32 =? B / 32) with false by lia. simpl. rewrite xorb_false_r.
          f_equal. replace (a mod 32 + (32 - x0 mod 32)) with (a - B) by lia.
          f_equal. lia.
        * rewrite H1. f_equal. f_equal.
          destruct (N.leb_spec B a); simpl; [|apply andb_false_r].
          destruct (N.ltb_spec a (B + w)); simpl; [|apply andb_false_r].
          lia.
      + exists fb1. split; [reflexivity|]. split; [assumption|].
        intros a. rewrite H1. replace (py (cmin clip) <=? y0 + r) with true by lia. cbn [andb]. fold B.
        f_equal. f_equal.
        destruct (N.leb_spec B a); simpl; [|apply andb_false_r].
        destruct (N.ltb_spec a (B + w)); simpl; [|apply andb_false_r].
        lia.
  Qed.

  (** The row loop *)
  Lemma xor_rows_spec ymax fb :
    is_frbuf fb -> ymax <= gl_h f off -> y0 + ymax <= 536 ->
    (x0 + w <= 352 \/ y0 + ymax <= 535 \/ 535 < py (cmin clip) \/ ymax = 0) ->
    exists fb',
      for_range 0 ymax
        (xor_row m f clip off w (x0 / 32) ((x0 + w) / 32) (32 - x0 mod 32) y0) fb = Ret fb' /\
      is_frbuf fb' /\
      forall a, lbit fb' a = xorb (lbit fb a)
        ((y0 * 352 + x0 <=? a) &&
         let r := (a - x0) / 352 - y0 in let i := (a - x0) mod 352 in
         (r <? ymax) && (i <? w) && (py (cmin clip) <=? y0 + r) && glyph_pixel f off i r).
  Proof.
    intros Hfb Hym Hy Hfit. pose proof (go_w f off Hg) as Hw. fold w in Hw.
    set (P := fun (k : N) (g : frbuf) => is_frbuf g /\ forall a, lbit g a = xorb (lbit fb a)
        ((y0 * 352 + x0 <=? a) &&
         let r := (a - x0) / 352 - y0 in let i := (a - x0) mod 352 in
         (r <? k) && (i <? w) && (py (cmin clip) <=? y0 + r) && glyph_pixel f off i r)).
    destruct (for_range_inv P
       (xor_row m f clip off w (x0 / 32) ((x0 + w) / 32) (32 - x0 mod 32) y0) 0 ymax fb)
      as (fb' & E & HP).
    - lia.
    - split; [assumption|]. intros a. cbv zeta.
      replace ((a - x0) / 352 - y0 <? 0) with false by lia. simpl.
      rewrite andb_false_r, xorb_false_r. reflexivity.
    - intros r g Hr [Hg1 Hbits].
      destruct (xor_row_spec r g) as (g' & E & Hg' & Hb'); try assumption; try lia.
      exists g'; split; [exact E|split; [assumption|]].
      intros a. rewrite Hb', Hbits. rewrite xorb_assoc_reverse. f_equal. cbv zeta.
      destruct (N.leb_spec (y0 * 352 + x0) a) as [Ha|Ha]; cbn [andb].
      2:{ replace ((y0 + r) * 352 + x0 <=? a) with false by lia.
          rewrite !andb_false_r. reflexivity. }
      destruct (N.eqb_spec ((a - x0) / 352 - y0) r) as [Er|Er].
      + (* this row *)
        rewrite Er. replace (r <? r) with false by lia. replace (r <? r + 1) with true by lia.
        cbn [andb]. rewrite xorb_false_l.
        replace (a - ((y0 + r) * 352 + x0)) with ((a - x0) mod 352) by lia.
        f_equal. rewrite andb_comm. f_equal.
        lia.
      + replace ((r <? r)) with false by lia.
        replace ((a - x0) / 352 - y0 <? r + 1) with ((a - x0) / 352 - y0 <? r) by lia.
        replace (((y0 + r) * 352 + x0 <=? a) && (a <? (y0 + r) * 352 + x0 + w)) with false by lia.
        rewrite andb_false_r. simpl. apply xorb_false_r.
    - exists fb'; split; [exact E|exact HP].
  Qed.

  (** A row of the bottom line that is too long *)
  Lemma xor_row_panics r fb :
    is_frbuf fb -> r < gl_h f off -> y0 + r = 535 -> 352 < x0 + w -> py (cmin clip) <= 535 ->
    xor_row m f clip off w (x0 / 32) ((x0 + w) / 32) (32 - x0 mod 32) y0 r fb = Panic.
  Proof.
    intros Hfb Hr Hy Hfit Htop. pose proof (limit_ge m Hm) as HL.
    pose proof (go_w f off Hg) as Hw. fold w in Hw.
    unfold xor_row. rewrite uadd_ok by lia. cbn [bind]. rewrite Hy.
    replace (535 <? py (cmin clip)) with false by lia.
    destruct (row_pattern_spec m f off r Hm Hf Hg Hr) as (p & Ep & Hp & Hbits). fold w in Ep, Hp, Hbits.
    rewrite Ep. cbn [bind]. unfold WORDS_PER_LINE.
    rewrite umul_ok by lia. cbn [bind]. rewrite uadd_ok by lia. cbn [bind].
    rewrite usub_ok by lia. cbn [bind]. rewrite shl32_ok by lia. cbn [bind].
    rewrite fb_aget by (assumption || lia). cbn [bind].
    rewrite fb_aset by (assumption || lia). cbn [bind].
    replace (32 - x0 mod 32 <? w) with true by lia.
    rewrite uadd_ok by lia. cbn [bind]. rewrite shr32_ok by lia. cbn [bind].
    rewrite aget_panic; [reflexivity|]. rewrite upd_length, (frbuf_length fb Hfb). lia.
  Qed.

  Lemma xor_rows_panics ymax fb :
    is_frbuf fb -> ymax <= gl_h f off -> y0 + ymax = 536 -> 0 < ymax -> 352 < x0 + w -> py (cmin clip) <= 535 ->
    for_range 0 ymax
      (xor_row m f clip off w (x0 / 32) ((x0 + w) / 32) (32 - x0 mod 32) y0) fb = Panic.
  Proof.
    intros Hfb Hym Hy H0 Hfit Htop.
    destruct (xor_rows_spec (ymax - 1) fb Hfb) as (fb1 & E & Hfb1 & _); try lia.
    rewrite (for_range_last _ ymax fb H0), E. cbn [bind].
    apply xor_row_panics; (assumption || lia).
  Qed.
End XorRow.
