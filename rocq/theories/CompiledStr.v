(** * The compiled paint_str *)
From Coq Require Import ZArith.
From Verif Require Import PrimFacts Str M3Hash FontDefs Geom FbFacts Blit Webasm WebasmLogic DemoCode SpecCompiled CompiledBase CompiledHash
  CompiledFind DemoFile CompiledFile CompiledTables Fonts CompiledFirst CompiledRows CompiledChar CompiledNext.
From Verif Require Import SpecCompiledPaint.
From Verif Require CompiledPaint CompiledXor XorProofs SpecPaint LookupProofs FontsOk.

Ltac hop := (eapply under_br; [reflexivity|]); unfold restack; cbn [locals globals mem stack].
Ltac go := first [apply wp_br; eapply under_br; [reflexivity|] | apply wp_nil; eapply under_end; [reflexivity|]]; unfold restack; cbn [locals globals mem stack].

(** What xor_char answers is where a character begins *)
Lemma xor_slice F fb clip c s gs fb' c' n : SpecPaint.fontset_ok F ->
  xor_char wasm32 F fb clip c s gs = Ret (fb', c', Some n) -> exists t, slice_from s n = Ret t.
Proof.
  intros HF. assert (Z : exists t, slice_from s 0 = Ret t) by (exists s; destruct s; reflexivity).
  unfold xor_char. destruct ((LINES <? py (cmax clip)) || (WIDTH <? px (cmax clip)) || (px (cmax clip) <=? px (cmin clip))).
  { intros E. injection E as _ _ <-. exact Z. }
  rewrite (LookupProofs.lookup_spec _ s (SpecPaint.fs_fonts _ HF gs)). cbn [bind].
  destruct (SpecPaint.glyph_for (F gs) s) as [(o, k)|]; cbn [LookupProofs.lookup_result]; intros E; [|discriminate].
  assert (Y : exists t, slice_from s (str_len (firstn k s)) = Ret t) by (eexists; apply LookupProofs.slice_prefix).
  revert E. generalize dependent (str_len (firstn k s)). intros bytes Y E.
  repeat match type of E with
  | bind ?x _ = _ => let e := fresh in destruct x as [?|] eqn:e; cbn [bind] in E; [|discriminate E]; clear e
  | (let (_, _) := ?x in _) = _ => destruct x
  | (if ?b then _ else _) = _ => destruct b
  end; injection E; intros; subst; assumption.
Qed.

Lemma copy8 m a b : bytes_ok m -> load32 (store64 m a (load64 m b)) a = load32 m b /\ load32 (store64 m a (load64 m b)) (a + 4) = load32 m (b + 4).
Proof.
  intros H. destruct (store64_parts m a (load64 m b)) as (A & B). rewrite A, B, load64_parts by exact H.
  assert (L := load32_lt m b H). assert (K := load32_lt m (b + 4) H). rewrite (N.mul_comm W). split.
  - rewrite N.mod_add by (unfold W; lia). apply N.mod_small. exact L.
  - rewrite N.div_add by (unfold W; lia). rewrite N.div_small by exact L. apply N.mod_small. exact K.
Qed.

Section Str.
Variables (clip : cliprect) (st : glyphstyle) (clipp curp sp lo e : N) (g : list N) (m : memory).
Let l5 := sp - 48.
Hypothesis (Hsp : 416 <= sp) (Hsp' : sp <= 1048576) (Hst : statics m) (Hclip : clip_at m clipp clip).
Hypothesis (Hcl : sp <= clipp) (Hcl' : clipp + 16 <= 1048576) (Hcu : sp <= curp) (Hcu' : curp + 12 <= 1048576).
Hypothesis (Hcc : clipp + 16 <= curp \/ curp + 12 <= clipp).
Hypothesis (He : e <= 2686976) (Hd1 : e <= sp - 416 \/ sp <= lo) (Hd2 : e <= curp \/ curp + 12 <= lo) (Hd3 : e <= FB \/ FB + 23584 <= lo).

Definition parts : list (N * N) := [(sp - 416, sp); (curp, curp + 12); (FB, FB + 23584)].
Definition Inv (fb' : frbuf) (c' : cursor) (m' : memory) : Prop :=
  is_frbuf fb' /\ fb_at m' fb' /\ bytes_ok m' /\ cursor_at m' curp c' /\ only_in parts m m'.

Lemma outside m' a : only_in parts m m' -> a < sp - 416 \/ sp <= a -> a < curp \/ curp + 12 <= a -> a < FB \/ FB + 23584 <= a -> m' a = m a.
Proof. intros H A B C. apply H. unfold parts. rewrite !Forall_cons_iff. cbn [fst snd]. repeat split; try assumption. constructor. Qed.
Lemma only_more m1 m2 : only_in parts m m1 ->
  (forall a, a < sp - 416 \/ sp <= a -> a < curp \/ curp + 12 <= a -> a < FB \/ FB + 23584 <= a -> m2 a = m1 a) -> only_in parts m m2.
Proof.
  intros H K a Ha. assert (Ha' := Ha). unfold parts in Ha'. rewrite !Forall_cons_iff in Ha'. cbn [fst snd] in Ha'. destruct Ha' as (A & B & C & _).
  rewrite K by assumption. apply H. exact Ha.
Qed.
Lemma inv_statics fb c m1 : Inv fb c m1 -> statics m1.
Proof. intros (_ & _ & _ & _ & H). eapply statics_same; [exact Hst|]. intros a A B. apply outside; [exact H|lia|lia|lia]. Qed.
Lemma inv_clip fb c m1 : Inv fb c m1 -> clip_at m1 clipp clip.
Proof.
  intros (_ & _ & _ & _ & H). destruct Hclip as (A & B & C & D).
  assert (L : forall k, k + 4 <= 16 -> load32 m1 (clipp + k) = load32 m (clipp + k)).
  { intros k Hk. apply load_ext. intros x X Y. apply outside; [exact H|lia|lia|unfold FB; lia]. }
  assert (L0 := L 0 ltac:(lia)). rewrite N.add_0_r in L0.
  split; [rewrite L0; exact A|]. split; [rewrite L by lia; exact B|]. split; [rewrite L by lia; exact C|rewrite L by lia; exact D].
Qed.
Lemma inv_str fb c m1 q s : Inv fb c m1 -> lo <= q -> q + str_len s = e -> str_at m q s -> str_at m1 q s.
Proof.
  intros (_ & _ & _ & _ & H) A B C i Hi. rewrite <- (C i Hi). rewrite <- str_len_bytes in B. apply outside; [exact H|lia|lia|lia].
Qed.
Lemma inv_frame fb c m1 m2 : Inv fb c m1 -> same_but (sp - 416) sp m1 m2 -> bytes_ok m2 -> Inv fb c m2.
Proof.
  intros (A & B & C & (D1 & D2 & D3) & E) H K. split; [exact A|]. split; [eapply fb_other; [exact B|]; intros a X Y; apply H; unfold FB in *; lia|].
  split; [exact K|]. split; [repeat split; rewrite (same_load32 _ _ _ _ _ H) by lia; assumption|].
  eapply only_more; [exact E|]. intros a X _ _. apply H. exact X.
Qed.
Lemma inv_store fb c c' m1 k v : Inv fb c m1 -> k + 4 <= 12 -> cursor_at (store32 m1 (curp + k) v) curp c' -> Inv fb c' (store32 m1 (curp + k) v).
Proof.
  intros (A & B & C & D & E) Hk K. split; [exact A|]. split; [eapply fb_other; [exact B|]; intros a X Y; apply store_other; unfold FB in *; lia|].
  split; [apply store_ok; exact C|]. split; [exact K|]. eapply only_more; [exact E|]. intros a _ X _. apply store_other. lia.
Qed.
Lemma inv_x fb' c' m' v : Inv fb' c' m' -> v < W -> Inv fb' (Cursor (Pt v (cy c')) (line_height c')) (store32 m' curp v).
Proof.
  intros H K. rewrite <- (N.add_0_r curp) at 1. apply (inv_store _ c'); [exact H|lia|]. destruct H as (_ & _ & _ & (F1 & F2 & F3) & _).
  rewrite N.add_0_r. repeat split; cbn [cx cy cpt line_height px py]; rewrite ?load32_other by lia; [apply load32_same; exact K|exact F2|exact F3].
Qed.
Lemma inv_y fb' c' m' v : Inv fb' c' m' -> v < W -> Inv fb' (Cursor (Pt (cx c') v) (line_height c')) (store32 m' (curp + 4) v).
Proof.
  intros H K. apply (inv_store _ c'); [exact H|lia|]. destruct H as (_ & _ & _ & (F1 & F2 & F3) & _).
  repeat split; cbn [cx cy cpt line_height px py]; rewrite ?load32_other by lia; [exact F1|apply load32_same; exact K|exact F3].
Qed.
Lemma inv_h fb' c' m' v : Inv fb' c' m' -> v < W -> Inv fb' (Cursor (Pt (cx c') (cy c')) v) (store32 m' (curp + 8) v).
Proof.
  intros H K. apply (inv_store _ c'); [exact H|lia|]. destruct H as (_ & _ & _ & (F1 & F2 & F3) & _).
  repeat split; cbn [cx cy cpt line_height px py]; rewrite ?load32_other by lia; [exact F1|exact F2|apply load32_same; exact K].
Qed.

(** The clip rectangle is copied for each call *)
Lemma copy_code fb c m1 l1 l2 l3 l4 l6 l7 l8 l9 l10 l11 l12 l13 g' is (Q : outcome -> Prop) : Inv fb c m1 ->
  (forall m2, Inv fb c m2 -> clip_at m2 (l5 + 32) clip -> wp demo_env is (St [clipp; l1; l2; l3; l4; l5; l6; l7; l8; l9; l10; l11; l12; l13] g' m2 []) Q) ->
  wp demo_env (ILoad64 0 :: IStore64 0 :: ILGet 5 :: ILGet 0 :: ILoad64 0 :: IStore64 32 :: is)
    (St [clipp; l1; l2; l3; l4; l5; l6; l7; l8; l9; l10; l11; l12; l13] g' m1 [clipp + 8; l5 + 40]) Q.
Proof.
  intros I K. assert (Hl : l5 + 48 = sp) by (unfold l5; lia). clearbody l5. destruct (inv_clip _ _ _ I) as (C1 & C2 & C3 & C4).
  assert (Hok : bytes_ok m1) by apply I.
  eapply wp_load64; [rewrite N.add_0_r; reflexivity|lia|]. eapply wp_store64; [apply N.add_0_r|lia|]. set (m2 := store64 m1 (l5 + 40) (load64 m1 (clipp + 8))).
  assert (Hok2 : bytes_ok m2) by (apply store_ok; exact Hok).
  destruct (copy8 m1 (l5 + 40) (clipp + 8) Hok) as (A1 & A2). fold m2 in A1, A2.
  eapply (wp_pure demo_env (ILGet 5)); [reflexivity|]. eapply (wp_pure demo_env (ILGet 0)); [reflexivity|].
  eapply wp_load64; [rewrite N.add_0_r; reflexivity|lia|]. eapply wp_store64; [reflexivity|lia|].
  destruct (copy8 m2 (l5 + 32) clipp Hok2) as (B1 & B2).
  apply K.
  - apply (inv_frame fb c m1 _ I); [|apply store_ok; exact Hok2]. apply (same_trans _ _ _ m2); apply same_store; lia.
  - split; [rewrite B1; unfold m2; rewrite load32_other64 by lia; exact C1|].
    split; [rewrite B2; unfold m2; rewrite load32_other64 by lia; exact C2|].
    split; [rewrite load32_other64 by lia; replace (l5 + 32 + 8) with (l5 + 40) by lia; rewrite A1; exact C3|].
    rewrite load32_other64 by lia; replace (l5 + 32 + 12) with (l5 + 40 + 4) by lia; rewrite A2. replace (clipp + 8 + 4) with (clipp + 12) by lia. exact C4.
Qed.

(** The calls of xor_char *)
Lemma call_code gs fb c c0 s0 q m1 ret l is (Q : outcome -> Prop) :
  Inv fb c m1 -> clip_at m1 (l5 + 32) clip -> l5 <= ret -> ret + 8 <= l5 + 32 -> chars (c0 :: s0) -> str_at m1 q (c0 :: s0) ->
  q + str_len (c0 :: s0) <= 2686976 -> (q + str_len (c0 :: s0) <= sp - 416 \/ sp <= q) ->
  (xor_char wasm32 blitstr_fonts fb clip c (c0 :: s0) gs = Panic -> Q Trap) ->
  (forall fb' c' a m2, xor_char wasm32 blitstr_fonts fb clip c (c0 :: s0) gs = Ret (fb', c', a) -> Inv fb' c' m2 -> result_at m2 ret a ->
    wp demo_env is (St l (l5 :: g) m2 []) Q) ->
  wp demo_env (ICall 27 :: is) (St l (l5 :: g) m1 [set_code gs; str_len (c0 :: s0); q; curp; l5 + 32; ret]) Q.
Proof.
  intros I Hc Hr Hr' Hch Hs Hq Hdis HT HR. assert (Hl : l5 + 48 = sp) by (unfold l5; lia). clearbody l5.
  assert (HS := inv_statics _ _ _ I). assert (I' := I). destruct I' as (A & B & C & D & E).
  eapply wp_call; [reflexivity|reflexivity|]. cbn [rev firstn skipn app].
  eapply fwp_mono; [|apply (CompiledXor.xor_compiled gs fb clip c c0 s0 ret (l5 + 32) curp q l5 g m1); try assumption; lia].
  intros r. unfold CompiledXor.xored. destruct (xor_char wasm32 blitstr_fonts fb clip c (c0 :: s0) gs) as [[[fb' c'] a]|] eqn:X; [|intros ->; apply HT; reflexivity].
  intros (m2 & -> & A' & B' & D' & R & C' & E'). cbn [app]. apply (HR fb' c' a); [reflexivity| |exact R].
  split; [exact A'|]. split; [exact B'|]. split; [exact C'|]. split; [exact D'|]. eapply only_more; [exact E|].
  intros x X1 X2 X3. apply E'. rewrite !Forall_cons_iff. cbn [fst snd]. repeat split; try assumption; try lia. constructor.
Qed.

Lemma newline_eq c : newline wasm32 blitstr_fonts clip c =
  Ret (Cursor (Pt (px (cmin clip)) (add32 (cy c) (add32 (if line_height c <? 24 then 24 else line_height c) 1))) 0).
Proof.
  unfold newline. rewrite uadd_wrap. cbn [bind]. rewrite uadd_wrap. cbn [bind]. rewrite CompiledPaint.max_height_eq. reflexivity.
Qed.

(** ** One iteration *)
Section Step.
Variables (fb : frbuf) (c : cursor) (c0 : N) (s0 : str) (q l4 : N) (m1 : memory) (P : outcome -> Prop).
Let s := c0 :: s0.
Let l6 := set_code (latin_set st).
Hypothesis (HI : Inv fb c m1) (Hlo : lo <= q) (Hq : q + str_len s = e) (Hat : str_at m q s) (Hch : chars s).
Hypothesis (HT : paint_step wasm32 blitstr_fonts clip st fb c s = Panic -> P Trap).
Hypothesis (HK : forall fb' c' s' q' m' l7 l8 l9 l10 l11 l12 l13, paint_step wasm32 blitstr_fonts clip st fb c s = Ret (fb', c', s') -> Inv fb' c' m' ->
  lo <= q' -> q' + str_len s' = e -> str_at m q' s' -> chars s' ->
  wp demo_env f2_83 (St [clipp; curp; str_len s'; q'; l4; l5; l6; l7; l8; l9; l10; l11; l12; l13] (l5 :: g) m' []) P).

Lemma newline_code l9 l10 l11 l12 l13 : c0 = 10 ->
  wp demo_env f2_42 (St [clipp; curp; str_len s; q; l4; l5; l6; q + 1; e; l9; l10; l11; l12; l13] (l5 :: g) m1 [])
   (under [f2_47; f2_50; f2_53; f2_56; f2_57; f2_66; f2_83] P).
Proof.
  intros E0. assert (Hl : l5 + 48 = sp) by (unfold l5; lia). clearbody l5. destruct (inv_clip _ _ _ HI) as (C1 & C2 & C3 & C4).
  assert (Hx : px (cmin clip) < W) by (rewrite <- C1; apply load32_lt; apply HI).
  crun. eapply wp_load; [rewrite N.add_0_r; exact C1|lia|]. eapply wp_store; [apply N.add_0_r|lia|].
  assert (I1 := inv_x _ _ _ _ HI Hx). set (m2 := store32 m1 curp (px (cmin clip))) in *. cbn [cx cy cpt px py line_height] in I1.
  assert (Fin : forall m3 l9, Inv fb (Cursor (Pt (px (cmin clip)) (cy c)) l9) m3 -> l9 = (if line_height c <? 24 then 24 else line_height c) ->
    wp demo_env f2_44 (St [clipp; curp; str_len s; q; l4; l5; l6; q + 1; e; l9; l10; l11; l12; l13] (l5 :: g) m3 [])
      (under [f2_47; f2_50; f2_53; f2_56; f2_57; f2_66; f2_83] P)).
  { clear l9. intros m3 l9 I3 E9. crun. eapply wp_store; [reflexivity|lia|].
    assert (I4 := inv_h _ _ _ 0 I3 ltac:(reflexivity)). set (m4 := store32 m3 (curp + 8) 0) in *. cbn [cx cy cpt px py line_height] in I4. run.
    eapply wp_load; [exact (proj1 (proj2 (proj1 (proj2 (proj2 (proj2 I4))))))|lia|]. cbn [cy cpt py]. run.
    eapply wp_store; [reflexivity|lia|]. assert (I5 := inv_y _ _ _ _ I4 (add32_lt (add32 l9 (cy c)) 1)).
    set (m5 := store32 m4 (curp + 4) (add32 (add32 l9 (cy c)) 1)) in *. cbn [cx cy cpt px py line_height] in I5.
    assert (Es : slice_from s 1 = Ret s0) by (unfold s; rewrite E0; cbn [slice_from]; change (len_utf8 10) with 1; cbn; destruct s0; reflexivity).
    assert (Ep : paint_step wasm32 blitstr_fonts clip st fb c s = Ret (fb, Cursor (Pt (px (cmin clip)) (add32 (add32 l9 (cy c)) 1)) 0, s0)).
    { rewrite XorProofs.paint_step_cases. unfold s at 1. rewrite E0. cbn [N.eqb Pos.eqb]. rewrite newline_eq. cbn [bind]. rewrite Es. cbn [bind].
      rewrite <- E9. rewrite <- CompiledPaint.add32_assoc, (CompiledPaint.add32_comm (cy c) l9). reflexivity. }
    destruct (slice_at s 1 s0 m q Es Hch Hat) as (A1 & A2 & A3).
    assert (Fin : wp demo_env f2_46 (St [clipp; curp; str_len s; q; l4; l5; l6; q + 1; e; l9; l10; l11; l12; l13] (l5 :: g) m5 [])
      (under [f2_47; f2_50; f2_53; f2_56; f2_57; f2_66; f2_83] P)).
    { crun. rewrite add32_minus by (unfold W; lia). go. replace (str_len s - (W - 4294967295)) with (str_len s0) by (unfold W; lia).
      eapply HK; [exact Ep|exact I5|lia|lia|exact A3|exact A2]. }
    apply wp_block_under. crun. apply wp_if; intros Z; [hop; exact Fin|]. apply N.eqb_neq in Z. run.
    assert (Hs0 : exists d t, s0 = d :: t) by (destruct s0 as [|d t]; [cbn [str_len] in A1; lia|eauto]). destruct Hs0 as (d & t & Es0).
    assert (S5 := inv_str _ _ _ (q + 1) s0 I5 ltac:(lia) ltac:(lia) A3). assert (Hd : d < 0x110000) by (rewrite Es0 in A2; exact (Forall_inv A2)).
    assert (Hlen : str_len s0 = len_utf8 d + str_len t) by (rewrite Es0; reflexivity).
    rewrite Es0 in S5. destruct (str_at_cons m5 (q + 1) d t S5) as (Hb & _).
    assert (B0 := bytes_nth m5 (q + 1) _ 0 (q + 1) Hb ltac:(assert (X := utf8_length d); assert (Y' := len_utf8_pos d); lia) ltac:(lia)). assert (F := first_byte d Hd).
    eapply wp_load8s; [rewrite N.add_0_r; unfold load8s; rewrite B0; reflexivity|lia|]. run.
    apply wp_not_taken; [apply signed_start; lia|]. go. exact Fin. }
  apply wp_block_under. crun. eapply wp_load; [exact (proj2 (proj2 (proj1 (proj2 (proj2 (proj2 I1))))))|lia|]. cbn [line_height]. run.
  apply wp_if; intros Z.
  - hop. apply N.ltb_lt in Z. apply Fin; [exact I1|]. destruct (N.ltb_spec (line_height c) 24); [lia|reflexivity].
  - apply N.ltb_ge in Z. run. eapply wp_store; [reflexivity|lia|]. go. apply Fin; [exact (inv_h _ _ _ 24 I1 ltac:(reflexivity))|].
    destruct (N.ltb_spec (line_height c) 24); [reflexivity|lia].
Qed.

(** After one of the fonts has the character *)
Ltac adv n t Sl R S2 HR := crun; eapply wp_load; [exact R|lia|]; eapply wp_pure; [reflexivity|]; cbn [upd];
  eapply (bound_code s n t q); [exact Sl|exact Hch|exact S2|lia|
    (eapply under_br; [reflexivity|])|(eapply under_end; [reflexivity|])];
  unfold restack; cbn [locals globals mem stack]; crun; rewrite add32_small, sub32_small by (unfold W; lia); go; apply HR.

Lemma glyph_code l10 l11 l12 l13 : c0 <> 10 ->
  wp demo_env f2_41 (St [clipp; curp; str_len s; q; l4; l5; l6; q + 1; e; c0; l10; l11; l12; l13] (l5 :: g) m1 [])
   (under [f2_42; f2_47; f2_50; f2_53; f2_56; f2_57; f2_66; f2_83] P).
Proof.
  intros E0. assert (Ep : paint_step wasm32 blitstr_fonts clip st fb c s = XorProofs.step_glyph wasm32 blitstr_fonts clip st c s fb).
  { rewrite XorProofs.paint_step_cases. unfold s at 1. apply N.eqb_neq in E0. rewrite E0. reflexivity. }
  unfold XorProofs.step_glyph in Ep.
  assert (HT' : paint_step wasm32 blitstr_fonts clip st fb c s = Panic -> forall L, under L P Trap) by (intros E L; apply under_trap; exact (HT E)).
  assert (HR : forall fb' c' n t m' l7 l8 l9 l10 l11 l12 l13, paint_step wasm32 blitstr_fonts clip st fb c s = Ret (fb', c', t) -> slice_from s n = Ret t -> Inv fb' c' m' ->
    wp demo_env f2_83 (St [clipp; curp; str_len s - n; q + n; l4; l5; l6; l7; l8; l9; l10; l11; l12; l13] (l5 :: g) m' []) P).
  { clear l10 l11 l12 l13. intros fb' c' n t m' l7 l8 l9 l10 l11 l12 l13 E Es I. destruct (slice_at s n t m q Es Hch Hat) as (A1 & A2 & A3).
    replace (str_len s - n) with (str_len t) by lia. eapply HK; [exact E|exact I|lia|lia|exact A3|exact A2]. }
  assert (SL : forall n t, slice_from s n = Ret t -> n <= str_len s) by (intros n t Es; destruct (slice_at s n t m q Es Hch Hat) as (A1 & _); lia).
  assert (HS : forall fb' c' m', Inv fb' c' m' -> str_at m' q s) by (intros fb' c' m' I; exact (inv_str _ _ _ q s I Hlo Hq Hat)).
  assert (Hdis : q + str_len s <= sp - 416 \/ sp <= q) by lia.
  assert (Hl : l5 + 48 = sp) by (unfold l5; lia).
  crun. rewrite (add32_small l5 32), (add32_small (l5 + 32) 8), (add32_small clipp 8) by (unfold W; lia). replace (l5 + 32 + 8) with (l5 + 40) by lia.
  apply (copy_code fb c m1); [exact HI|]. intros m2 I2 Q2. run. rewrite (add32_small l5 32), (add32_small l5 24) by (unfold W; lia).
  apply (call_code Emoji fb c c0 s0 q m2 (l5 + 24)); [exact I2|exact Q2|lia|lia|exact Hch|exact (HS _ _ _ I2)|fold s; lia|exact Hdis| |].
  { fold s. intros X. apply HT'. rewrite Ep, X. reflexivity. }
  fold s. intros fb1 c1 a1 m3 X1 I3 R3. rewrite X1 in Ep. cbn [bind] in Ep. run. destruct a1 as [n|]; cbn [result_at] in R3.
  { destruct R3 as (R3 & R4). replace (l5 + 24 + 4) with (l5 + 28) in R4 by lia. destruct (xor_slice _ _ _ _ _ _ _ _ _ FontsOk.fonts_ok X1) as (t & Sl). rewrite Sl in Ep. cbn [bind] in Ep.
    assert (Sn := SL _ _ Sl). assert (S3 := HS _ _ _ I3).
    eapply wp_load; [exact R3|lia|]. run. apply wp_taken; [reflexivity|]. hop. unfold f2_47. apply wp_block_under.
    adv n t Sl R4 S3 (HR fb1 c1 n t m3 (q + 1) e n l10 (clipp + 8) l12 l13 Ep Sl I3). }
  eapply wp_load; [exact R3|lia|]. run. apply wp_not_taken; [reflexivity|]. run.
  apply (copy_code fb1 c1 m3); [exact I3|]. intros m4 I4 Q4. run. rewrite (add32_small l5 32), (add32_small l5 16) by (unfold W; lia).
  apply (call_code (latin_set st) fb1 c1 c0 s0 q m4 (l5 + 16)); [exact I4|exact Q4|lia|lia|exact Hch|exact (HS _ _ _ I4)|fold s; lia|exact Hdis| |].
  { fold s. intros X. apply HT'. rewrite Ep, X. reflexivity. }
  fold s. intros fb2 c2 a2 m5 X2 I5 R5. rewrite X2 in Ep. cbn [bind] in Ep. run. destruct a2 as [n|]; cbn [result_at] in R5.
  { destruct R5 as (R5 & R6). replace (l5 + 16 + 4) with (l5 + 20) in R6 by lia. destruct (xor_slice _ _ _ _ _ _ _ _ _ FontsOk.fonts_ok X2) as (t & Sl). rewrite Sl in Ep. cbn [bind] in Ep.
    assert (Sn := SL _ _ Sl). assert (S5 := HS _ _ _ I5).
    eapply wp_load; [exact R5|lia|]. run. apply wp_taken; [reflexivity|]. hop. unfold f2_50. apply wp_block_under.
    adv n t Sl R6 S5 (HR fb2 c2 n t m5 (q + 1) e n l10 (clipp + 8) l12 l13 Ep Sl I5). }
  eapply wp_load; [exact R5|lia|]. run. apply wp_not_taken; [reflexivity|]. run.
  apply (copy_code fb2 c2 m5); [exact I5|]. intros m6 I6 Q6. run. rewrite (add32_small l5 32), (add32_small l5 8) by (unfold W; lia).
  apply (call_code Hanzi fb2 c2 c0 s0 q m6 (l5 + 8)); [exact I6|exact Q6|lia|lia|exact Hch|exact (HS _ _ _ I6)|fold s; lia|exact Hdis| |].
  { fold s. intros X. apply HT'. rewrite Ep, X. reflexivity. }
  fold s. intros fb3 c3 a3 m7 X3 I7 R7. rewrite X3 in Ep. cbn [bind] in Ep. run. destruct a3 as [n|]; cbn [result_at] in R7.
  { destruct R7 as (R7 & R8). replace (l5 + 8 + 4) with (l5 + 12) in R8 by lia. destruct (xor_slice _ _ _ _ _ _ _ _ _ FontsOk.fonts_ok X3) as (t & Sl). rewrite Sl in Ep. cbn [bind] in Ep.
    assert (Sn := SL _ _ Sl). assert (S7 := HS _ _ _ I7).
    eapply wp_load; [exact R7|lia|]. run. apply wp_taken; [reflexivity|]. hop. unfold f2_53. apply wp_block_under.
    adv n t Sl R8 S7 (HR fb3 c3 n t m7 (q + 1) e n l10 (clipp + 8) l12 l13 Ep Sl I7). }
  eapply wp_load; [exact R7|lia|]. run. apply wp_not_taken; [reflexivity|]. run.
  apply (copy_code fb3 c3 m7); [exact I7|]. intros m8 I8 Q8. run. rewrite (add32_small l5 32) by (unfold W; lia).
  assert (Hrep : str_at m8 1078272 replacement).
  { exact (inv_statics _ _ _ I8 46%nat 1078272 (Bytes (utf8 65533)) eq_refl eq_refl). }
  apply (call_code (latin_set st) fb3 c3 65533 [] 1078272 m8 l5); [exact I8|exact Q8|lia|lia|repeat constructor|exact Hrep|cbn; lia|cbn; lia| |].
  { intros X. apply HT'. rewrite Ep. unfold replacement. rewrite X. reflexivity. }
  intros fb4 c4 a4 m9 X4 I9 R9. unfold replacement in Ep. rewrite X4 in Ep. cbn [bind] in Ep. run. destruct a4 as [n|]; cbn [result_at] in R9.
  2: { eapply wp_load; [rewrite N.add_0_r; exact R9|lia|]. apply (wp_taken _ _ _ _ _ _ true); [reflexivity|]. hop. eapply HK; [exact Ep|exact I9|lia|exact Hq|exact Hat|exact Hch]. }
  destruct R9 as (R9 & _). eapply wp_load; [rewrite N.add_0_r; exact R9|lia|]. apply (wp_not_taken _ _ _ _ _ _ false); [reflexivity|].
  rewrite LookupProofs.second_index in Ep. unfold s in Ep.
  assert (S9 := HS _ _ _ I9). destruct (str_at_cons m9 q c0 s0 S9) as (Hb & Hs0). assert (Hc0 := Forall_inv Hch). assert (Hl0 : str_len s = len_utf8 c0 + str_len s0) by reflexivity.
  apply (past_code c0 q e m9 (l5 :: g) Hc0 Hb ltac:(lia) He); [lia|]. clear l10 l11 l12. intros l9 l10 l11 l12.
  crun. destruct (N.eqb_spec e (q + len_utf8 c0)) as [Z|Z].
  { apply wp_taken; [reflexivity|]. hop. destruct s0 as [|d t] eqn:Es0.
    - eapply HK; [exact Ep|exact I9|lia|exact Hq|exact Hat|exact Hch].
    - exfalso. assert (Y := len_utf8_pos d). cbn [str_len] in Hl0. lia. }
  apply wp_not_taken; [reflexivity|]. 
  assert (Hs0' : exists d t, s0 = d :: t) by (destruct s0 as [|d t]; [cbn [str_len] in Hl0; lia|eauto]). destruct Hs0' as (d & t & Es0).
  assert (Sl : slice_from s (len_utf8 c0) = Ret s0).
  { unfold s. change (c0 :: s0) with ([c0] ++ s0). replace (len_utf8 c0) with (str_len [c0]) by (cbn [str_len]; lia). apply LookupProofs.slice_app. }
  assert (Ep' : paint_step wasm32 blitstr_fonts clip st fb c s = Ret (fb4, c4, s0)).
  { unfold s. rewrite Ep. rewrite Es0 at 1. fold s. rewrite Sl. reflexivity. }
  assert (Hd : d < 0x110000) by (assert (Y := Hch); unfold s in Y; rewrite Es0 in Y; inversion Y as [|? ? _ Y2]; exact (Forall_inv Y2)).
  assert (Hs1 := Hs0). rewrite Es0 in Hs1. destruct (str_at_cons m9 _ d t Hs1) as (Hb1 & _). assert (Hl1 : str_len s0 = len_utf8 d + str_len t) by (rewrite Es0; reflexivity).
  apply (second_code d (q + len_utf8 c0) e m9 (l5 :: g) Hd Hb1 ltac:(lia) He). clear l9 l10 l11 l12. intros l8 l9 l10 l11 l12.
  unfold f2_80. apply wp_block_under. unfold f2_81.
  do 3 (eapply wp_pure; [reflexivity|]). cbn [bin]. rewrite (sub32_small (q + len_utf8 c0) q) by (unfold W; lia). replace (q + len_utf8 c0 - q) with (len_utf8 c0) by lia.
  eapply wp_pure; [reflexivity|]. cbn [upd].
  eapply (bound_code s (len_utf8 c0) s0 q); [exact Sl|exact Hch|exact S9|lia|(eapply under_br; [reflexivity|])|(eapply under_end; [reflexivity|])];
    unfold restack; cbn [locals globals mem stack]; crun; rewrite add32_small, sub32_small by (unfold W; lia); go;
    apply (HR fb4 c4 (len_utf8 c0) s0 m9); assumption.
Qed.

Lemma step_code l9 l10 l11 l12 l13 :
  wp demo_env (IBlock f2_14 :: f2_83) (St [clipp; curp; str_len s; q; l4; l5; l6; q + 1; e; l9; l10; l11; l12; l13] (l5 :: g) m1 []) P.
Proof.
  change P with (under [] P). apply wp_block_under. do 8 (code; apply wp_block_under). unfold f2_22.
  assert (S1 := inv_str _ _ _ q s HI Hlo Hq Hat). destruct (str_at_cons m1 q c0 s0 S1) as (Hb & _). assert (Hc0 := Forall_inv Hch).
  assert (Hl0 : str_len s = len_utf8 c0 + str_len s0) by reflexivity.
  apply (read_code c0 q e m1 (l5 :: g) Hc0 Hb ltac:(lia) He); [lia|]. clear l10 l11 l12 l13. intros l10 l11 l12 l13.
  crun. apply wp_if; intros Z.
  - apply N.eqb_eq in Z. hop. apply newline_code. exact Z.
  - apply N.eqb_neq in Z. go. apply glyph_code. exact Z.
Qed.
End Step.

(** ** The loop *)
Lemma loop_code n : forall fb c s q m1 l7 l8 l9 l10 l11 l12 l13 (Q : outcome -> Prop),
  Inv fb c m1 -> lo <= q -> q + str_len s = e -> str_at m q s -> chars s -> N.of_nat (S n) < W ->
  (paint_loop (S n) wasm32 blitstr_fonts clip st fb c s = Panic -> Q Trap) ->
  (forall fb' c' m' l, paint_loop (S n) wasm32 blitstr_fonts clip st fb c s = Ret (fb', c') -> Inv fb' c' m' -> nth_error l 5 = Some l5 ->
    Q (Branch 0 (St l (l5 :: g) m' [])) /\ Q (Done (St l (l5 :: g) m' []))) ->
  wp demo_env [ILoop f2_13] (St [clipp; curp; str_len s; q; N.of_nat (S n); l5; set_code (latin_set st); l7; l8; l9; l10; l11; l12; l13] (l5 :: g) m1 []) Q.
Proof.
  induction n as [|n IH]; intros fb c s q m1 l7 l8 l9 l10 l11 l12 l13 Q HI Hlo Hq Hat Hch Hn HT HK; apply wp_loop_step; crun.
  all: destruct s as [|c0 s0]; [apply wp_taken; [reflexivity|]; cbn [again]; apply (HK fb c m1); [reflexivity|exact HI|reflexivity]|].
  all: assert (Hp := len_utf8_pos c0); assert (Hl0 : str_len (c0 :: s0) = len_utf8 c0 + str_len s0) by reflexivity;
    (apply wp_not_taken; [apply N.eqb_neq; lia|]); run; rewrite (add32_small q 1), (add32_small q (str_len (c0 :: s0))) by (unfold W; lia); rewrite Hq.
  all: cbn [paint_loop] in HT, HK; apply (step_code fb c c0 s0 q _ m1); try assumption;
    [intros E; cbn [again]; apply HT; rewrite E; reflexivity|].
  - clear l7 l8 l9 l10 l11 l12 l13. intros fb' c' s' q' m' l7 l8 l9 l10 l11 l12 l13 E I A1 A2 A3 A4. rewrite E in HT, HK. cbn [bind paint_loop] in HT, HK.
    crun. change (add32 (N.of_nat 1) 4294967295) with (b2n false). apply wp_not_taken; [reflexivity|]. apply wp_nil. cbn [again]. unfold restack; cbn [locals globals mem stack].
    apply wp_nil. apply (HK fb' c' m'); [reflexivity|exact I|reflexivity].
  - clear l7 l8 l9 l10 l11 l12 l13. intros fb' c' s' q' m' l7 l8 l9 l10 l11 l12 l13 E I A1 A2 A3 A4. rewrite E in HT, HK. cbn [bind] in HT, HK.
    crun. rewrite add32_minus by (unfold W in *; lia). replace (N.of_nat (S (S n)) - (W - 4294967295)) with (N.of_nat (S n)) by (unfold W; lia).
    apply wp_br_if; [intros _|intros Z; lia]. cbn [again]. unfold restack; cbn [locals globals mem stack].
    apply IH with (fb := fb') (c := c'); try assumption. lia.
Qed.
End Str.

(** ** The function *)
Section Paint.
Variables (fb : frbuf) (clip : cliprect) (c : cursor) (st : glyphstyle) (s : str) (clipp curp p sp : N) (g : list N) (m : memory).
Hypothesis (Hsp : 416 <= sp) (Hsp' : sp <= 1048576) (Hst : statics m) (Hok : bytes_ok m) (Hfr : is_frbuf fb) (Hfb : fb_at m fb).
Hypothesis (Hclip : clip_at m clipp clip) (Hcur : cursor_at m curp c).
Hypothesis (Hcl : sp <= clipp) (Hcl' : clipp + 16 <= 1048576) (Hcu : sp <= curp) (Hcu' : curp + 12 <= 1048576).
Hypothesis (Hcc : clipp + 16 <= curp \/ curp + 12 <= clipp).
Hypothesis (Hch : chars s) (Hat : str_at m p s) (Hp : p + str_len s <= 2686976).
Hypothesis (Hd1 : p + str_len s <= sp - 416 \/ sp <= p) (Hd2 : p + str_len s <= curp \/ curp + 12 <= p) (Hd3 : p + str_len s <= FB \/ FB + 23584 <= p).

Definition painted (r : option (list N * list N * memory)) : Prop :=
  match paint_str wasm32 blitstr_fonts fb clip c st s with
  | Panic => r = None
  | Ret (fb', c') => exists m', r = Some ([], sp :: g, m') /\ is_frbuf fb' /\ fb_at m' fb' /\ cursor_at m' curp c' /\
      bytes_ok m' /\ only_in [(sp - 416, sp); (curp, curp + 12); (FB, FB + 23584)] m m'
  end.

Theorem paint_compiled : fwp demo_env 2 [clipp; curp; style_code st; p; str_len s] (sp :: g) m painted.
Proof.
  eapply fwp_intro; [reflexivity|reflexivity|]. cbn [fn_body fn_results]. unfold enter. cbn [fn_locals repeat app]. unfold f2.
  run. rewrite (sub32_small sp 48) by (unfold W; lia). 
  assert (HI : Inv curp sp m fb c m) by (unfold Inv; split; [exact Hfr|]; split; [exact Hfb|]; split; [exact Hok|]; split; [exact Hcur|]; intros a _; reflexivity).
  assert (K : wp demo_env f2_6 (St [clipp; curp; style_code st; p; str_len s; sp - 48; set_code (latin_set st); 0; 0; 0; 0; 0; 0; 0] ((sp - 48) :: g) m []) (finish 0 painted)).
  { change (finish 0 painted) with (under [] (finish 0 painted)). do 6 (code; apply wp_block_under). 
    assert (Ex : forall fb' c' m' l, paint_str wasm32 blitstr_fonts fb clip c st s = Ret (fb', c') -> Inv curp sp m fb' c' m' -> nth_error l 5 = Some (sp - 48) ->
      wp demo_env f2_84 (St l ((sp - 48) :: g) m' []) (under [f2_85; f2_86; f2_87; f2_88; f2_89] (finish 0 painted))).
    { intros fb' c' m' l E (A & B & C & D & F) L. unfold f2_84. eapply wp_pure; [cbn [pure]; rewrite L; reflexivity|]. run. rewrite add32_small by (unfold W; lia). replace (sp - 48 + 48) with sp by lia.
      apply wp_return. cbn [under after finish firstn stack globals mem]. unfold painted. rewrite E. exists m'. auto 10. }
    unfold f2_12. run. apply wp_if; intros Z.
    - hop. apply N.eqb_eq in Z. apply (Ex fb c m); [|exact HI|reflexivity]. unfold paint_str. rewrite Z. reflexivity.
    - apply N.eqb_neq in Z. run. destruct (N.to_nat (str_len s)) as [|n] eqn:En; [lia|]. assert (Es : N.of_nat (S n) = str_len s) by lia. rewrite <- Es at 2.
      apply (loop_code clip st clipp curp sp p (p + str_len s) g m) with (fb := fb) (c := c); try assumption; try lia.
      + unfold W. lia.
      + intros E. apply under_trap. cbn [finish]. unfold painted, paint_str. rewrite En, E. reflexivity.
      + intros fb' c' m' l E I L. assert (E' : paint_str wasm32 blitstr_fonts fb clip c st s = Ret (fb', c')) by (unfold paint_str; rewrite En; exact E).
        split; [hop|eapply under_end; [reflexivity|]; unfold restack; cbn [locals globals mem stack]]; exact (Ex fb' c' m' l E' I L). }
  apply wp_block. unfold f2_1. apply wp_block. unfold f2_2. apply wp_block. crun.
  replace (N.land (style_code st) 255) with (style_code st) by (destruct st; reflexivity).
  apply wp_br_table. destruct st; cbn [style_code];
    match goal with |- context [Branch (nth ?a ?b ?c)] => let v := eval vm_compute in (nth a b c) in change (nth a b c) with v end; next;
    try (crun; first [apply wp_br|apply wp_nil]; next); exact K.
Qed.
End Paint.
