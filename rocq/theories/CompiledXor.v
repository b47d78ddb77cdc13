(** * The compiled xor_char *)
From Coq Require Import ZArith.
From Verif Require Import PrimFacts Str M3Hash FontDefs Geom FbFacts Blit Webasm WebasmLogic DemoCode SpecCompiled CompiledBase CompiledHash
  CompiledFind DemoFile CompiledFile CompiledTables Fonts CompiledFirst CompiledRows.
From Verif Require Import SpecCompiledPaint.
From Verif Require CompiledPaint CompiledChar SpecPaint LookupProofs FontsOk.

Section Xor.
Variables (gs : glyphset) (fb : frbuf) (clip : cliprect) (c : cursor) (c0 : N) (s0 : str) (ret clipp curp p sp : N) (g : list N) (m : memory).
Let s := c0 :: s0.
Let len := str_len s.
Hypothesis (Hsp : 368 <= sp) (Hsp' : sp <= 1048576) (Hst : statics m) (Hok : bytes_ok m) (Hfr : is_frbuf fb) (Hfb : fb_at m fb).
Hypothesis (Hclip : clip_at m clipp clip) (Hcur : cursor_at m curp c).
Hypothesis (Hcl : sp <= clipp) (Hcl' : clipp + 16 <= 1048576) (Hcu : sp <= curp) (Hcu' : curp + 12 <= 1048576) (Hre : sp <= ret) (Hre' : ret + 8 <= 1048576).
Hypothesis (Hcc : clipp + 16 <= curp \/ curp + 12 <= clipp) (Hcr : ret + 8 <= curp \/ curp + 12 <= ret).
Hypothesis (Hch : chars s) (Hat : str_at m p s) (Hp : p + len <= 2686976) (Hdis : p + len <= sp - 368 \/ sp <= p).

Definition xored (r : option (list N * list N * memory)) : Prop :=
  match xor_char wasm32 blitstr_fonts fb clip c s gs with
  | Panic => r = None
  | Ret (fb', c', a) => exists m', r = Some ([], sp :: g, m') /\ is_frbuf fb' /\ fb_at m' fb' /\ cursor_at m' curp c' /\ result_at m' ret a /\
      bytes_ok m' /\ only_in [(sp - 368, sp); (ret, ret + 8); (curp, curp + 12); (FB, FB + 23584)] m m'
  end.


(** The end: the answer is written and the frame given back *)
Lemma leave_code fb' c' a m1 l3 l10 l1 l2 l4 l5 l7 l8 l9 l11 l12 l13 l14 l15 l16 l17 l18 l19 l20 l21 l22 l23 :
  xor_char wasm32 blitstr_fonts fb clip c s gs = Ret (fb', c', a) -> is_frbuf fb' -> fb_at m1 fb' -> cursor_at m1 curp c' -> bytes_ok m1 ->
  only_in [(sp - 368, sp); (curp, curp + 12); (FB, FB + 23584)] m m1 ->
  match a with Some n => l10 = 0 /\ l3 = n /\ n < W | None => l10 = 1 end ->
  wp demo_env f27_342 (St [ret; l1; l2; l3; l4; l5; sp - 352; l7; l8; l9; l10; l11; l12; l13; l14; l15; l16; l17; l18; l19; l20; l21; l22; l23] ((sp - 352) :: g) m1 [])
    (finish 0 xored).
Proof.
  intros E F A K B S H. destruct K as (K1 & K2 & K3). crun. eapply wp_store; [reflexivity|lia|]. run. eapply wp_store; [apply N.add_0_r|lia|]. run. apply wp_nil. next. cbn [firstn].
  rewrite add32_small by (unfold W; lia). replace (sp - 352 + 352) with sp by lia. unfold xored. rewrite E.
  set (m2 := store32 (store32 m1 (ret + 4) l3) ret l10).
  assert (S2 : forall x, x < ret \/ ret + 8 <= x -> m2 x = m1 x) by (intros x Hx; unfold m2, store32; rewrite !store_other by lia; reflexivity).
  exists m2. split; [reflexivity|]. split; [exact F|]. split; [eapply fb_other; [exact A|]; intros x X Y; apply S2; unfold FB in *; lia|].
  split; [unfold m2; repeat split; rewrite !load32_other by lia; assumption|]. split.
  { unfold m2. destruct a as [n|]; [destruct H as (-> & -> & H); split|rewrite H].
    - apply load32_same. reflexivity.
    - rewrite load32_other by lia. apply load32_same. exact H.
    - apply load32_same. reflexivity. }
  split; [unfold m2; apply store_ok; apply store_ok; exact B|]. intros x Hx. rewrite !Forall_cons_iff in Hx. cbn [fst snd] in Hx. destruct Hx as (X1 & X2 & X3 & X4 & _).
  rewrite S2 by exact X2. apply S. rewrite !Forall_cons_iff. cbn [fst snd]. repeat split; try assumption. constructor.
Qed.

Lemma bytes_small off bytes : get_blit_pattern_offset (blitstr_fonts gs) s = Ret (Some (off, bytes)) -> bytes < W.
Proof.
  rewrite (LookupProofs.lookup_spec _ s (SpecPaint.fs_fonts _ FontsOk.fonts_ok gs)). destruct (SpecPaint.glyph_for (blitstr_fonts gs) s) as [(o, n)|]; cbn [LookupProofs.lookup_result];
    intros E; [|discriminate]. injection E as _ <-. assert (A := LookupProofs.str_len_firstn_skipn n s). fold len in A. unfold W. lia.
Qed.

Theorem xor_compiled : fwp demo_env 27 [ret; clipp; curp; p; len; set_code gs] (sp :: g) m xored.
Proof.
  eapply fwp_intro; [reflexivity|reflexivity|]. cbn [fn_body fn_results]. unfold enter. cbn [fn_locals repeat app]. unfold f27.
  destruct Hclip as (C1 & C2 & C3 & C4). assert (Hn : len < W) by (unfold W; lia).
  run. rewrite (sub32_small sp 352) by (unfold W; lia). set (l6 := sp - 352).
  apply wp_block. unfold f27_1. apply wp_block. unfold f27_2. apply wp_block. crun.
  rewrite add32_small by (unfold W; lia). eapply wp_load; [rewrite N.add_0_r; exact C4|lia|]. run.
  assert (Bad : forall l7 l8 l9, (LINES <? py (cmax clip)) || (WIDTH <? px (cmax clip)) || (px (cmax clip) <=? px (cmin clip)) = true ->
    wp demo_env f27_340 (St [ret; clipp; curp; p; len; set_code gs; l6; l7; l8; l9; 0; 0; 0; 0; 0; 0; 0; 0; 0; 0; 0; 0; 0; 0] (l6 :: g) m [])
      (WebasmLogic.after demo_env f27_341 [] (WebasmLogic.after demo_env f27_342 [] (finish 0 xored)))).
  { intros l7 l8 l9 HB. crun. apply wp_nil. next. crun. apply wp_nil. next.
    apply (leave_code fb c (Some 0)); [unfold xor_char; rewrite HB; reflexivity|exact Hfr|exact Hfb|exact Hcur|exact Hok|intros a _; reflexivity|].
    split; [reflexivity|split; reflexivity]. }
  apply wp_if; intros Z1; [next; apply Bad; change LINES with 536; rewrite Z1; reflexivity|]. run.
  eapply wp_load; [exact C3|lia|]. run.
  apply wp_if; intros Z2; [next; apply Bad; change WIDTH with 336; rewrite Z2, Bool.orb_true_r; reflexivity|]. run.
  eapply wp_load; [rewrite N.add_0_r; exact C1|lia|]. run.
  apply wp_if; intros Z3; [next; apply Bad; rewrite Z3, Bool.orb_true_r; reflexivity|]. run.
  assert (Hgood : (LINES <? py (cmax clip)) || (WIDTH <? px (cmax clip)) || (px (cmax clip) <=? px (cmin clip)) = false)
    by (change LINES with 536; change WIDTH with 336; rewrite Z1, Z2, Z3; reflexivity). clear Bad.
  change (wp demo_env (IBlock f27_4 :: f27_339) (St [ret; clipp; curp; p; len; set_code gs; l6; py (cmax clip); px (cmax clip); px (cmin clip); 0; 0; 0; 0; 0; 0; 0; 0; 0; 0; 0; 0; 0; 0] (l6 :: g) m [])
    (CompiledChar.under (CompiledChar.below 3) (finish 0 xored))).
  assert (Hg : forall m', CompiledChar.OK l6 m m' -> only_in [(sp - 368, sp); (curp, curp + 12); (FB, FB + 23584)] m m').
  { intros m' (A & _) a Ha. rewrite !Forall_cons_iff in Ha. destruct Ha as (X1 & _). apply A. cbn [fst snd] in X1. unfold l6. lia. }
  set (Q := finish 0 xored).
  assert (Keep : forall m', CompiledChar.OK l6 m m' -> fb_at m' fb /\ cursor_at m' curp c /\ clip_at m' clipp clip /\ statics m' /\ bytes_ok m').
  { intros m' (A & B). destruct Hcur as (D1 & D2 & D3). assert (L : forall a, sp <= a -> load32 m' a = load32 m a) by (intros a Ha; apply (same_load32 _ _ _ _ _ A); unfold l6; lia).
    split; [eapply fb_other; [exact Hfb|]; intros x X Y; apply A; unfold l6, FB in *; lia|].
    split; [repeat split; rewrite L by lia; assumption|]. split; [repeat split; rewrite L by lia; assumption|].
    split; [|exact B]. eapply statics_same; [exact Hst|]. intros a X Y. apply A. unfold l6. lia. }
  assert (Kp : forall off bytes m' l4 l11 l13 l15, get_blit_pattern_offset (blitstr_fonts gs) s = Ret (Some (off, bytes)) -> off < data_size gs -> CompiledChar.OK l6 m m' ->
    wp demo_env f27_305 (St [ret; clipp; curp; bytes; l4; set_code gs; l6; py (cmax clip); px (cmax clip); px (cmin clip); data_at gs + 4 * off; l11;
      set_code gs; l13; off; l15; 0; 0; 0; 0; 0; 0; 0; 0] (l6 :: g) m' []) (CompiledChar.under (CompiledChar.below 15) Q)).
  { intros off bytes m' l4 l11 l13 l15 E Ho K. destruct (Keep m' K) as (K1 & K2 & K3 & K4 & K5).
    assert (Fin : forall fb' c' m'', CompiledPaint.Inv clip clipp curp m' fb' c' m'' -> only_in [(sp - 368, sp); (curp, curp + 12); (FB, FB + 23584)] m m'').
    { intros fb' c' m'' (_ & _ & _ & _ & _ & _ & P) a Ha. rewrite !Forall_cons_iff in Ha. cbn [fst snd] in Ha. destruct Ha as (X1 & X2 & X3 & _).
      rewrite P by assumption. apply (Hg m' K). rewrite !Forall_cons_iff. cbn [fst snd]. repeat split; try assumption. constructor. }
    apply (CompiledPaint.paint_code gs off bytes fb clip c s ret clipp curp l6 (l6 :: g) m' Hcl' Hcu' Hcc (CompiledChar.under (CompiledChar.below 12) Q)).
    - intros X. apply CompiledChar.under_trap. unfold Q. next. unfold xored. rewrite X. reflexivity.
    - intros fb' c' m'' l3 l X I (l1 & l2 & k4 & l5 & l7 & l8 & l9 & l10 & k11 & l12 & k13 & l14 & k15 & l16 & l17 & l18 & l19 & l20 & l21 & l22 & l23 & ->).
      eapply CompiledChar.under_br; [reflexivity|]. unfold restack; cbn [locals globals mem stack]. crun. apply wp_nil. eapply CompiledChar.under_end; [reflexivity|].
      unfold restack; cbn [locals globals mem stack]. crun. apply wp_nil. eapply CompiledChar.under_end; [reflexivity|]. unfold restack; cbn [locals globals mem stack].
      assert (Fi := Fin _ _ _ I). destruct I as (I1 & I2 & I3 & I4 & I5 & I6 & I7).
      apply (leave_code fb' c' (Some 0)); try assumption. split; [reflexivity|split; reflexivity].
    - intros fb' c' m'' l X I (l1 & l2 & k4 & l5 & l7 & l8 & l9 & l10 & k11 & l12 & k13 & l14 & k15 & l16 & l17 & l18 & l19 & l20 & l21 & l22 & l23 & ->).
      eapply CompiledChar.under_br; [reflexivity|].
      unfold restack; cbn [locals globals mem stack]. crun. apply wp_nil. eapply CompiledChar.under_end; [reflexivity|]. unfold restack; cbn [locals globals mem stack].
      assert (Fi := Fin _ _ _ I). destruct I as (I1 & I2 & I3 & I4 & I5 & I6 & I7).
      apply (leave_code fb' c' (Some bytes)); try assumption. split; [reflexivity|split; [reflexivity|]].
      exact (bytes_small _ _ E).
    - unfold CompiledPaint.Inv, CompiledPaint.painted. auto 10.
    - exact Hgood.
    - exact E.
    - exact Ho. }
  assert (Kt : forall off bytes, get_blit_pattern_offset (blitstr_fonts gs) s = Ret (Some (off, bytes)) -> data_size gs <= off -> Q Trap).
  { intros off bytes E Ho. unfold Q. next. unfold xored. unfold xor_char. rewrite Hgood, E. cbn [bind]. unfold header. rewrite (data_get m gs off Hst).
    destruct (N.ltb_spec off (data_size gs)); [lia|]. reflexivity. }
  assert (Ke : forall m' l3 l4 l11 l12 l13 l14 l15, get_blit_pattern_offset (blitstr_fonts gs) s = Ret None -> CompiledChar.OK l6 m m' ->
    wp demo_env f27_342 (St [ret; clipp; curp; l3; l4; set_code gs; l6; py (cmax clip); px (cmax clip); px (cmin clip); 1; l11; l12; l13; l14; l15; 0; 0; 0; 0; 0; 0; 0; 0]
      (l6 :: g) m' []) Q).
  { intros m' l3 l4 l11 l12 l13 l14 l15 E K. destruct (Keep m' K) as (K1 & K2 & K3 & K4 & K5).
    apply (leave_code fb c None); try assumption; [|exact (Hg m' K)|reflexivity]. unfold xor_char. rewrite Hgood, E. reflexivity. }
  assert (A1 : 16 <= l6) by (unfold l6; lia). assert (A2 : l6 + 352 <= 1048576) by (unfold l6; lia).
  assert (A3 : p + len <= l6 - 16 \/ l6 + 352 <= p) by (unfold l6; lia).
  clearbody l6 Q. fold s in Hch, Hat. clear Hg Keep.
  apply CompiledChar.wp_block_under. do 52 (code; apply CompiledChar.wp_block_under). crun.
  replace (N.land (set_code gs) 255) with (set_code gs) by (destruct gs; reflexivity).
  apply wp_br_table. destruct gs eqn:Egs; cbn [set_code];
    match goal with |- context [Branch (nth ?a ?b ?c)] => let v := eval vm_compute in (nth a b c) in change (nth a b c) with v end;
    (eapply CompiledChar.under_br; [reflexivity|]); unfold restack; cbn [locals globals mem stack].
  - apply (CompiledChar.emoji_code Emoji c0 s0 p ret clipp curp l6 _ _ _ 0 0 0 0 0 0 0 0 g m A1 A2 Hst Hok Hch Hat Hp A3 Q Kp Kt Ke); reflexivity.
  - apply (CompiledChar.bold_code Bold c0 s0 p ret clipp curp l6 _ _ _ 0 0 0 0 0 0 0 0 g m A1 A2 Hst Hok Hch Hat Hp A3 Q Kp Kt Ke); reflexivity.
  - apply (CompiledChar.regular_code Regular c0 s0 p ret clipp curp l6 _ _ _ 0 0 0 0 0 0 0 0 g m A1 A2 Hst Hok Hch Hat Hp A3 Q Kp Kt Ke); reflexivity.
  - apply (CompiledChar.small_code Small c0 s0 p ret clipp curp l6 _ _ _ 0 0 0 0 0 0 0 0 g m A1 A2 Hst Hok Hch Hat Hp A3 Q Kp Kt Ke); reflexivity.
  - apply (CompiledChar.hanzi_code Hanzi c0 s0 p ret clipp curp l6 _ _ _ 0 0 0 0 0 0 0 0 g m A1 A2 Hst Hok Hch Hat Hp A3 Q Kp Kt Ke); reflexivity.
Qed.
End Xor.
