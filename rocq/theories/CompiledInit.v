(** * The compiled init *)
From Coq Require Import ZArith.
From Verif Require Import PrimFacts Str M3Hash FontDefs Geom FbFacts Blit Demo Wasm Webasm WebasmLogic DemoCode SpecCompiled CompiledBase CompiledHash
  CompiledFind DemoFile CompiledFile CompiledTables Fonts CompiledRows.
From Verif Require Import SpecCompiledPaint.
From Verif Require CompiledClear CompiledStr.

Section Init.
Variables (fb : frbuf) (sp : N) (g : list N) (m : memory).
Let l0 := sp - 48.
Hypothesis (Hsp : 464 <= sp) (Hsp' : sp <= 1048576) (Hst : statics m).

Definition J (fb' : frbuf) (m' : memory) : Prop :=
  is_frbuf fb' /\ fb_at m' fb' /\ bytes_ok m' /\ only_in [(sp - 464, sp); (FB, FB + 23584)] m m'.

Lemma only_more m1 m2 : only_in [(sp - 464, sp); (FB, FB + 23584)] m m1 ->
  (forall a, a < sp - 464 \/ sp <= a -> a < FB \/ FB + 23584 <= a -> m2 a = m1 a) -> only_in [(sp - 464, sp); (FB, FB + 23584)] m m2.
Proof.
  intros H K a Ha. assert (Ha' := Ha). rewrite !Forall_cons_iff in Ha'. cbn [fst snd] in Ha'. destruct Ha' as (A & B & _).
  rewrite K by assumption. apply H. exact Ha.
Qed.
Lemma j_statics fb' m1 : J fb' m1 -> statics m1.
Proof.
  intros (_ & _ & _ & H). eapply statics_same; [exact Hst|]. intros a A B. apply H. rewrite !Forall_cons_iff. cbn [fst snd].
  split; [lia|]. split; [lia|constructor].
Qed.
Lemma j_store n fb' m1 a v : J fb' m1 -> sp - 48 <= a -> a + n <= sp -> J fb' (store n m1 a v).
Proof.
  intros (A & B & C & D) L R. split; [exact A|]. split; [eapply fb_other; [exact B|]; intros x X Y; apply store_other; unfold FB in *; lia|].
  split; [apply store_ok; exact C|]. eapply only_more; [exact D|]. intros x X _. apply store_other. lia.
Qed.

(** A call of clear_region *)
Lemma clear_code fb1 m1 clip l is (Q : outcome -> Prop) : J fb1 m1 -> clip_at m1 (l0 + 32) clip ->
  (forall fb' m2, clear_region wasm32 fb1 clip = Ret fb' -> J fb' m2 -> (forall a, a < FB -> m2 a = m1 a) -> wp demo_env is (St l (l0 :: g) m2 []) Q) ->
  wp demo_env (ICall 1 :: is) (St l (l0 :: g) m1 [l0 + 32]) Q.
Proof.
  intros (A & B & C & D) Hc K. eapply wp_call; [reflexivity|reflexivity|]. cbn [rev firstn skipn app].
  eapply fwp_mono; [|apply (CompiledClear.clear_compiled m1 (l0 + 32) clip fb1 (l0 :: g) A B C Hc); unfold l0; lia].
  intros r (m2 & fb' & -> & E & A' & B' & C' & S). cbn [app]. apply (K fb'); [exact E| |intros a Ha; apply S; left; exact Ha].
  split; [exact A'|]. split; [exact B'|]. split; [exact C'|]. eapply only_more; [exact D|]. intros a _ Ha. apply S. exact Ha.
Qed.

(** A call of paint_str with the text that is piece [k] *)
Lemma paint_code k a s st fb1 clip c m1 curp n l is (Q : outcome -> Prop) : J fb1 m1 -> clip_at m1 (l0 + 32) clip -> cursor_at m1 curp c ->
  l0 <= curp -> curp + 12 <= l0 + 32 -> nth_error demo_addrs k = Some a -> nth_error demo_pieces k = Some (Bytes (flat_map utf8 s)) ->
  n = str_len s -> chars s -> sp <= a -> a + n <= FB ->
  (paint_str wasm32 blitstr_fonts fb1 clip c st s = Panic -> Q Trap) ->
  (forall fb' c' m2, paint_str wasm32 blitstr_fonts fb1 clip c st s = Ret (fb', c') -> J fb' m2 -> cursor_at m2 curp c' ->
    wp demo_env is (St l (l0 :: g) m2 []) Q) ->
  wp demo_env (ICall 2 :: is) (St l (l0 :: g) m1 [n; a; style_code st; curp; l0 + 32]) Q.
Proof.
  intros I Hc Hu H1 H2 Ha Hk -> Hch L1 L2 HT HK. assert (S := j_statics _ _ I k a _ Ha Hk). cbn [piece_at] in S. assert (I' := I). destruct I' as (A & B & C & D).
  assert (Hl : l0 + 48 = sp) by (unfold l0; lia).
  eapply wp_call; [reflexivity|reflexivity|]. cbn [rev firstn skipn app].
  eapply fwp_mono; [|apply (CompiledStr.paint_compiled fb1 clip c st s (l0 + 32) curp a l0 g m1); try assumption; try exact (j_statics _ _ I); unfold FB in *; lia].
  intros r. unfold CompiledStr.painted. destruct (paint_str wasm32 blitstr_fonts fb1 clip c st s) as [(fb', c')|]; [|intros ->; apply HT; reflexivity].
  intros (m2 & -> & A' & B' & U & C' & O). cbn [app]. apply (HK fb' c'); [reflexivity| |exact U].
  split; [exact A'|]. split; [exact B'|]. split; [exact C'|]. eapply only_more; [exact D|]. intros x X Y. apply O. rewrite !Forall_cons_iff. cbn [fst snd].
  split; [lia|]. split; [lia|]. split; [exact Y|constructor].
Qed.

(** The clip rectangles and cursors that init writes *)
Lemma clip_words m1 a v w : clip_at (store64 (store64 m1 (a + 8) w) a v) a (ClipRect (Pt (v mod W) (v / W mod W)) (Pt (w mod W) (w / W mod W))).
Proof.
  destruct (store64_parts (store64 m1 (a + 8) w) a v) as (A & B). destruct (store64_parts m1 (a + 8) w) as (C & D).
  split; [exact A|]. split; [exact B|]. split; [rewrite load32_other64 by lia; exact C|rewrite load32_other64 by lia; replace (a + 12) with (a + 8 + 4) by lia; exact D].
Qed.
Lemma cursor_words m1 a v w : w < W -> cursor_at (store64 (store32 m1 (a + 8) w) a v) a (Cursor (Pt (v mod W) (v / W mod W)) w).
Proof.
  intros H. destruct (store64_parts (store32 m1 (a + 8) w) a v) as (A & B). split; [exact A|]. split; [exact B|].
  rewrite load32_other64 by lia. apply load32_same. exact H.
Qed.
Lemma cursor_keeps m1 m2 a c : (forall x, a <= x -> x < a + 12 -> m2 x = m1 x) -> cursor_at m1 a c -> cursor_at m2 a c.
Proof.
  intros H (A & B & C). split; [|split]; [rewrite <- A|rewrite <- B|rewrite <- C]; apply load_ext; intros x X Y; apply H; lia.
Qed.

(** One text on the padded screen *)
Lemma piece_code k a s st fb1 c m1 n l1 l2 is (Q : outcome -> Prop) : J fb1 m1 -> cursor_at m1 l0 c ->
  nth_error demo_addrs k = Some a -> nth_error demo_pieces k = Some (Bytes (flat_map utf8 s)) ->
  n = str_len s -> chars s -> sp <= a -> a + n <= FB ->
  (paint_str wasm32 blitstr_fonts fb1 padded_screen c st s = Panic -> Q Trap) ->
  (forall fb' c' m2, paint_str wasm32 blitstr_fonts fb1 padded_screen c st s = Ret (fb', c') -> J fb' m2 -> cursor_at m2 l0 c' ->
    wp demo_env is (St [l0; l1; l2] (l0 :: g) m2 []) Q) ->
  wp demo_env (ILGet 0 :: IConst 2276332667210 :: IStore64 40 :: ILGet 0 :: IConst 25769803782 :: IStore64 32 :: ILGet 0 :: IConst 32 :: IBin Add ::
    ILGet 0 :: IConst (style_code st) :: IConst a :: IConst n :: ICall 2 :: is) (St [l0; l1; l2] (l0 :: g) m1 []) Q.
Proof.
  intros I U Ha Hk Hn Hch L1 L2 HT HK. assert (Hl : l0 + 48 = sp) by (unfold l0; lia).
  run. eapply (wp_store64 _ _ _ _ _ _ _ _ _ (l0 + 32 + 8)); [lia|lia|]. run. eapply wp_store64; [reflexivity|lia|]. run. rewrite add32_small by (unfold W; lia).
  apply (paint_code k a s st fb1 padded_screen c); try assumption; try lia.
  - apply j_store; [apply j_store; [exact I|lia|lia]|lia|lia].
  - apply (clip_words m1 (l0 + 32) 25769803782 2276332667210).
  - eapply cursor_keeps; [|exact U]. intros x X Y. unfold store64. rewrite !store_other by lia. reflexivity.
Qed.

Hypothesis (Hok : bytes_ok m) (Hfr : is_frbuf fb) (Hfb : fb_at m fb).
Definition inited (r : option (list N * list N * memory)) : Prop :=
  match wasm_init wasm32 blitstr_fonts fb with
  | Panic => r = None
  | Ret fb' => exists m', r = Some ([], sp :: g, m') /\ is_frbuf fb' /\ fb_at m' fb' /\ bytes_ok m' /\ only_in [(sp - 464, sp); (FB, FB + 23584)] m m'
  end.
Ltac text := first [reflexivity|lia|unfold FB; lia|solve [repeat constructor]].

Theorem init_compiled : fwp demo_env 0 [] (sp :: g) m inited.
Proof.
  eapply fwp_intro; [reflexivity|reflexivity|]. cbn [fn_body fn_results]. unfold enter. cbn [fn_locals repeat app]. unfold f0.
  run. rewrite (sub32_small sp 48) by (unfold W; lia). fold l0. assert (Hl : l0 + 48 = sp) by (unfold l0; lia).
  assert (I0 : J fb m) by (split; [exact Hfr|]; split; [exact Hfb|]; split; [exact Hok|]; intros a _; reflexivity).
  set (Q := finish 0 inited).
  assert (Ep : wasm_init wasm32 blitstr_fonts fb = wasm_init wasm32 blitstr_fonts fb) by reflexivity. unfold wasm_init at 2, sample_text in Ep.
  assert (HT : wasm_init wasm32 blitstr_fonts fb = Panic -> Q Trap) by (intros E; unfold Q; cbn [finish]; unfold inited; rewrite E; reflexivity).
  assert (HF : forall fb' m', wasm_init wasm32 blitstr_fonts fb = Ret fb' -> J fb' m' -> inited (Some ([], sp :: g, m'))).
  { intros fb' m' E (A & B & C & D). unfold inited. rewrite E. exists m'. auto 10. }
  eapply (wp_store64 _ _ _ _ _ _ _ _ _ (l0 + 32 + 8)); [lia|lia|]. run. eapply wp_store64; [reflexivity|lia|]. run. rewrite (add32_small l0 32) by (unfold W; lia).
  apply (clear_code fb _ full_screen); [apply j_store; [apply j_store; [exact I0|lia|lia]|lia|lia]|apply (clip_words m (l0 + 32) 0 2302102470992)|].
  intros fb1 m1 E1 I1 _. rewrite E1 in Ep. cbn [bind] in Ep.
  run. eapply wp_store; [reflexivity|lia|]. run. eapply (wp_store64 _ _ _ _ _ _ _ _ _ l0); [lia|lia|].
  assert (U1 := cursor_words m1 l0 25769803782 0 eq_refl).
  assert (I2 : J fb1 (store64 (store32 m1 (l0 + 8) 0) l0 25769803782)) by (apply j_store; [apply j_store; [exact I1|lia|lia]|lia|lia]).
  set (m2 := store64 _ _ _) in *. clearbody m2. change (Cursor (Pt (25769803782 mod W) (25769803782 / W mod W)) 0) with (from_top_left_of padded_screen) in U1.
  eapply (piece_code 85 2636016 str_note StBold fb1 _ m2); [exact I2|exact U1|text|text|text|text|text|text|intros X; apply HT; rewrite Ep, X; reflexivity|].
  intros fb3 c3 m3 X3 I3 U3. rewrite X3 in Ep. cbn [bind] in Ep.
  eapply (piece_code 85 2636016 str_note StRegular fb3 _ m3); [exact I3|exact U3|text|text|text|text|text|text|intros X; apply HT; rewrite Ep, X; reflexivity|].
  intros fb4 c4 m4 X4 I4 U4. rewrite X4 in Ep. cbn [bind] in Ep.
  eapply (piece_code 85 2636016 str_note StSmall fb4 _ m4); [exact I4|exact U4|text|text|text|text|text|text|intros X; apply HT; rewrite Ep, X; reflexivity|].
  intros fb5 c5 m5 X5 I5 U5. rewrite X5 in Ep. cbn [bind] in Ep.
  eapply (piece_code 86 2636056 str_sas1 StRegular fb5 _ m5); [exact I5|exact U5|text|text|text|text|text|text|intros X; apply HT; rewrite Ep, X; reflexivity|].
  intros fb6 c6 m6 X6 I6 U6. rewrite X6 in Ep. cbn [bind] in Ep.
  eapply (piece_code 87 2636099 str_sas2 StRegular fb6 _ m6); [exact I6|exact U6|text|text|text|text|text|text|intros X; apply HT; rewrite Ep, X; reflexivity|].
  intros fb7 c7 m7 X7 I7 U7. rewrite X7 in Ep. cbn [bind] in Ep.
  eapply (piece_code 88 2636131 str_sas3 StRegular fb7 _ m7); [exact I7|exact U7|text|text|text|text|text|text|intros X; apply HT; rewrite Ep, X; reflexivity|].
  intros fb8 c8 m8 X8 I8 U8. rewrite X8 in Ep. cbn [bind] in Ep.
  eapply (piece_code 89 2636164 str_sas4 StRegular fb8 _ m8); [exact I8|exact U8|text|text|text|text|text|text|intros X; apply HT; rewrite Ep, X; reflexivity|].
  intros fb9 c9 m9 X9 I9 U9. rewrite X9 in Ep. cbn [bind] in Ep.
  eapply (piece_code 90 2636194 str_wrap StRegular fb9 _ m9); [exact I9|exact U9|text|text|text|text|text|text|intros X; apply HT; rewrite Ep, X; reflexivity|].
  intros fb10 c10 m10 X10 I10 U10. rewrite X10 in Ep. cbn [bind] in Ep.
  assert (B10 : bytes_ok m10) by apply I10. destruct U10 as (U1' & U2' & U3').
  assert (Y1 := load32_lt m10 l0 B10). assert (Y2 := load32_lt m10 (l0 + 4) B10). assert (Y3 := load32_lt m10 (l0 + 8) B10). rewrite U1' in Y1. rewrite U2' in Y2. rewrite U3' in Y3.
  run. eapply wp_load; [exact U3'|lia|]. run. eapply wp_store; [reflexivity|lia|]. run.
  eapply wp_load; [rewrite load32_other by lia; exact U2'|lia|]. run. eapply wp_store; [reflexivity|lia|]. run.
  eapply wp_load; [rewrite N.add_0_r, !load32_other by lia; exact U1'|lia|]. run. eapply wp_store; [reflexivity|lia|]. run.
  rewrite (add32_small l0 32), (add32_small (l0 + 32) 12) by (unfold W; lia).
  rewrite uadd_wrap in Ep. cbn [bind] in Ep.
  change (cy (cursor_new (cx c10) (cy c10) (line_height c10))) with (cy c10) in Ep. set (y := add32 (cy c10) 12) in *. assert (Hy : y < W) by apply add32_lt.
  eapply (wp_store _ _ _ _ _ _ _ _ _ (l0 + 32 + 12)); [lia|lia|]. run. eapply (wp_store _ _ _ _ _ _ _ _ _ (l0 + 32 + 8)); [lia|lia|]. run.
  eapply (wp_store _ _ _ _ _ _ _ _ _ (l0 + 32 + 4)); [lia|lia|]. run. eapply wp_store; [reflexivity|lia|]. run.
  rewrite (add32_small l0 32), (add32_small l0 16) by (unfold W; lia).
  set (m11 := store32 _ (l0 + 32) 36).
  assert (Hclip : exists clip, clip_at m11 (l0 + 32) clip /\ clip = cliprect_new 290 y 36 522).
  { eexists. split; [|reflexivity]. unfold m11, cliprect_new. change (36 <? 290) with true. cbn match. cbn [px py].
    destruct (522 <? y) eqn:Z; change (b2n true =? 0) with false; change (b2n false =? 0) with true; cbn match; cbn [px py];
      (split; [apply load32_same; reflexivity|]); (split; [rewrite load32_other by lia; apply load32_same; first [exact Hy|reflexivity]|]);
      (split; [rewrite !(load32_other _ (l0 + 32)), !(load32_other _ (l0 + 32 + 4)) by lia; apply load32_same; reflexivity|]);
      rewrite !(load32_other _ (l0 + 32)), !(load32_other _ (l0 + 32 + 4)), !(load32_other _ (l0 + 32 + 8)) by lia; apply load32_same; first [exact Hy|reflexivity]. }
  destruct Hclip as (clip & Hclip & Eclip).
  assert (Hcur : cursor_at m11 (l0 + 16) (cursor_new (cx c10) (cy c10) (line_height c10))).
  { unfold m11, cursor_new. split; [cbn [cx cpt px]; rewrite !(load32_other _ (l0 + 32)), !(load32_other _ (l0 + 32 + 4)), !(load32_other _ (l0 + 32 + 8)), !(load32_other _ (l0 + 32 + 12)) by lia; apply load32_same; exact Y1|].
    split; [cbn [cy cpt py]; replace (l0 + 16 + 4) with (l0 + 20) by lia; rewrite !(load32_other _ (l0 + 32)), !(load32_other _ (l0 + 32 + 4)), !(load32_other _ (l0 + 32 + 8)), !(load32_other _ (l0 + 32 + 12)), !(load32_other _ (l0 + 16)) by lia; apply load32_same; exact Y2|].
    cbn [line_height]; replace (l0 + 16 + 8) with (l0 + 24) by lia; rewrite !(load32_other _ (l0 + 32)), !(load32_other _ (l0 + 32 + 4)), !(load32_other _ (l0 + 32 + 8)), !(load32_other _ (l0 + 32 + 12)), !(load32_other _ (l0 + 16)), !(load32_other _ (l0 + 20)) by lia; apply load32_same; exact Y3. }
  assert (I11 : J fb10 m11) by (unfold m11; repeat (apply j_store; [|lia|lia]); exact I10).
  clearbody m11. change (usub wasm32 (py (cmax padded_screen)) 8) with (Ret 522) in Ep. change (uadd wasm32 (px (cmin padded_screen)) 30) with (Ret 36) in Ep.
  change (usub wasm32 (px (cmax padded_screen)) 40) with (Ret 290) in Ep. cbn [bind] in Ep. rewrite <- Eclip in Ep.
  apply (paint_code 90 2636194 str_wrap StSmall fb10 clip (cursor_new (cx c10) (cy c10) (line_height c10)) m11 (l0 + 16) 114);
    [exact I11|exact Hclip|exact Hcur|lia|lia|text|text|text|text|text|text|intros X; apply HT; rewrite Ep, X; reflexivity|].
  intros fb12 c12 m12 X12 I12 _. rewrite X12 in Ep. cbn [bind] in Ep. unfold goose_poem in Ep.
  run. eapply (wp_store64 _ _ _ _ _ _ _ _ _ (l0 + 32 + 8)); [lia|lia|]. run. eapply wp_store64; [reflexivity|lia|]. run. rewrite (add32_small l0 32) by (unfold W; lia).
  apply (clear_code fb12 _ full_screen); [apply j_store; [apply j_store; [exact I12|lia|lia]|lia|lia]|apply (clip_words m12 (l0 + 32) 0 2302102470992)|].
  intros fb13 m13 E13 I13 _. rewrite E13 in Ep. cbn [bind] in Ep.
  run. eapply (wp_store _ _ _ _ _ _ _ _ _ (l0 + 16 + 8)); [lia|lia|]. run. eapply wp_store64; [reflexivity|lia|].
  assert (U14 := cursor_words m13 (l0 + 16) 25769803782 0 eq_refl).
  assert (I14 : J fb13 (store64 (store32 m13 (l0 + 16 + 8) 0) (l0 + 16) 25769803782)) by (apply j_store; [apply j_store; [exact I13|lia|lia]|lia|lia]).
  set (m14 := store64 _ (l0 + 16) _) in *. clearbody m14. change (Cursor (Pt (25769803782 mod W) (25769803782 / W mod W)) 0) with (from_top_left_of padded_screen) in U14.
  run. eapply (wp_store64 _ _ _ _ _ _ _ _ _ (l0 + 32 + 8)); [lia|lia|]. run. eapply wp_store64; [reflexivity|lia|]. run. rewrite (add32_small l0 32), (add32_small l0 16) by (unfold W; lia).
  apply (paint_code 91 2636308 str_poem StRegular fb13 padded_screen (from_top_left_of padded_screen) _ (l0 + 16) 73);
    [apply j_store; [apply j_store; [exact I14|lia|lia]|lia|lia]|apply (clip_words m14 (l0 + 32) 25769803782 2276332667210)|
     eapply cursor_keeps; [|exact U14]; intros x X Y; unfold store64; rewrite !store_other by lia; reflexivity|
     lia|lia|text|text|text|text|text|text|intros X; apply HT; rewrite Ep, X; reflexivity|].
  intros fb15 c15 m15 X15 I15 _. rewrite X15 in Ep. cbn [bind] in Ep.
  run. rewrite add32_small by (unfold W; lia). rewrite Hl. apply wp_nil. unfold Q. cbn [finish stack globals mem firstn]. exact (HF fb15 m15 Ep I15).
Qed.
End Init.
