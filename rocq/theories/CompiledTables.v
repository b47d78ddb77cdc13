(** * The compiled tables of the fonts *)
From Coq Require Import ZArith.
From Verif Require Import PrimFacts Str M3Hash FontDefs Geom FbFacts Webasm WebasmLogic DemoCode SpecCompiled CompiledBase CompiledHash
  CompiledFind DemoFile CompiledFile SpecPaint PaintRow FontCheck Fonts FontsOk.

Lemma statics_words m k a l : statics m -> nth_error demo_addrs k = Some a -> nth_error demo_pieces k = Some (Words l) ->
  words_at m a l /\ Forall (fun w => w < W) l /\ 1048576 <= a /\ a + 4 * N.of_nat (length l) <= FB.
Proof.
  intros H Ha Hp. split; [exact (H k a _ Ha Hp)|]. split.
  - apply all_small_ok. assert (S := demo_small). rewrite forallb_forall in S. exact (S _ (nth_error_In _ _ Hp)).
  - destruct (static_inside k a _ Ha Hp) as (A & B). cbn [piece_len] in B. rewrite len_length in B. split; assumption.
Qed.

Section Find.
Context (m : memory) (sp ret p limit : N) (gs : list N) (t : str).
Hypothesis (Hst : statics m) (Hsp : 16 <= sp) (Hsp' : sp <= 1048576) (Hret : sp <= ret) (Hret' : ret + 12 <= 1048576).
Hypothesis (Ht : chars t) (Hat : str_at m p t) (Hp : p + str_len t <= 2686976) (Hl : limit < W).

Lemma lookup_static f b n kh ko hash off :
  nth_error demo_addrs kh = Some hash -> nth_error demo_pieces kh = Some (Words (b_hash b)) ->
  nth_error demo_addrs ko = Some off -> nth_error demo_pieces ko = Some (Words (b_offset b)) ->
  Nat.eqb (length (b_offset b)) (length (b_hash b)) = true ->
  nth_error demo_funcs f = Some (Func 4 0 4 (lookup_code n hash off)) -> N.of_nat (length (b_hash b)) = n -> 1 < n ->
  fwp demo_env f [ret; p; str_len t; limit] (sp :: gs) m (answer b m sp ret limit gs t).
Proof.
  intros A1 P1 A2 P2 L F N1 N2. apply Nat.eqb_eq in L.
  destruct (statics_words m kh _ _ Hst A1 P1) as (W1 & S1 & B1 & C1). destruct (statics_words m ko _ _ Hst A2 P2) as (W2 & S2 & B2 & C2).
  unfold FB in *. apply (lookup_compiled b m sp ret p limit hash off gs t) with (n := n); try assumption; lia.
Qed.
Lemma pair_static f b h0 h1 kh ko hash off :
  nth_error demo_addrs kh = Some hash -> nth_error demo_pieces kh = Some (Words (b_hash b)) ->
  nth_error demo_addrs ko = Some off -> nth_error demo_pieces ko = Some (Words (b_offset b)) ->
  Nat.eqb (length (b_offset b)) (length (b_hash b)) = true ->
  nth_error demo_funcs f = Some (Func 4 0 1 (pair_code (h1 - 1) hash off)) -> b_hash b = [h0; h1] -> 0 < h1 ->
  fwp demo_env f [ret; p; str_len t; limit] (sp :: gs) m (answer b m sp ret limit gs t).
Proof.
  intros A1 P1 A2 P2 L F N1 N2. apply Nat.eqb_eq in L.
  destruct (statics_words m kh _ _ Hst A1 P1) as (W1 & S1 & B1 & C1). destruct (statics_words m ko _ _ Hst A2 P2) as (W2 & S2 & B2 & C2).
  unfold FB in *. apply (pair_compiled b m sp ret p limit hash off gs t) with (h0 := h0) (h1 := h1); try assumption; lia.
Qed.

Ltac one n kh ko := eapply (lookup_static _ _ n kh ko); first [reflexivity | lia].
Ltac two h0 h1 kh ko := eapply (pair_static _ _ h0 h1 kh ko); first [reflexivity | lia].
Theorem find_compiled f g k b : In (f, g, k) find_functions -> nth_error (f_blocks (blitstr_fonts g)) k = Some b ->
  fwp demo_env f [ret; p; str_len t; limit] (sp :: gs) m (answer b m sp ret limit gs t).
Proof.
  intros I E. unfold find_functions in I.
  repeat match type of I with
  | In _ [] => destruct I
  | In _ (_ :: _) => apply in_inv in I; destruct I as [I|I]; [injection I as <- <- <-; cbn [nth_error blitstr_fonts f_blocks FontEmoji.emoji_font FontBold.bold_font FontRegular.regular_font FontSmall.small_font FontEmoji.emoji_blocks FontBold.bold_blocks FontRegular.regular_blocks FontSmall.small_blocks] in E; injection E as <-|]
  end.
  - one 24 44%nat 45%nat.
  - one 4 42%nat 43%nat.
  - one 4 40%nat 41%nat.
  - one 4 38%nat 39%nat.
  - one 16 36%nat 37%nat.
  - one 33 34%nat 35%nat.
  - two 0xa932cde6 0xd30e07eb 32%nat 33%nat.
  - one 16 30%nat 31%nat.
  - one 192 28%nat 29%nat.
  - one 73 26%nat 27%nat.
  - one 4 24%nat 25%nat.
  - one 14 22%nat 23%nat.
  - one 4 20%nat 21%nat.
  - one 4 18%nat 19%nat.
  - two 0x3a370578 0x81cb1e6b 16%nat 17%nat.
  - one 303 14%nat 15%nat.
  - one 19 12%nat 13%nat.
  - one 1648 10%nat 11%nat.
  - one 193 8%nat 9%nat.
  - one 202 6%nat 7%nat.
  - one 882 4%nat 5%nat.
  - one 148 78%nat 67%nat.
  - one 148 78%nat 79%nat.
  - one 148 78%nat 71%nat.
Qed.
End Find.

(** ** Panics *)
Lemma panic34 g m : fwp demo_env 34 [] g m (fun r => r = None).
Proof. eapply fwp_intro; [reflexivity|reflexivity|]. cbn [fn_body]. unfold f34. apply wp_unreachable. reflexivity. Qed.
Lemma panic6 a b g m : fwp demo_env 6 [a; b] g m (fun r => r = None).
Proof.
  eapply fwp_intro; [reflexivity|reflexivity|]. cbn [fn_body]. unfold f6. eapply wp_call; [reflexivity|reflexivity|].
  eapply fwp_mono; [|apply panic34]. intros r ->. reflexivity.
Qed.
Lemma wp_panic6 is l g m a b k (Q : outcome -> Prop) : Q Trap -> wp demo_env (ICall 6 :: is) (St l g m (b :: a :: k)) Q.
Proof. intros H. eapply wp_call; [reflexivity|reflexivity|]. eapply fwp_mono; [|apply panic6]. intros r ->. exact H. Qed.

(** ** Words of glyphs *)
Lemma bigarr_panic a i : pieces_ok a -> N.of_nat (length (concat a)) <= i -> bigarr_get a i = Panic.
Proof.
  revert i. induction a as [|q rest IH]; intros i Hp Hi; unfold bigarr_get; [destruct (N.to_nat (N.shiftr i 9)); reflexivity|].
  destruct (pieces_cons q rest Hp) as (Hl & Hfull & Hrest). cbn [concat] in Hi. rewrite app_length in Hi.
  rewrite N.shiftr_div_pow2. change (2 ^ 9) with 512. change 0x1ff with (N.ones 9). rewrite N.land_ones. change (2 ^ 9) with 512.
  destruct (N.lt_ge_cases i 512) as [C|C].
  - rewrite N.div_small, N.mod_small by lia. cbn [N.to_nat nth_error]. apply aget_panic. lia.
  - assert (D : i / 512 = (i - 512) / 512 + 1) by (replace i with (i - 512 + 1 * 512) at 1 by lia; rewrite N.div_add by discriminate; reflexivity).
    assert (M : i mod 512 = (i - 512) mod 512) by (replace i with (i - 512 + 1 * 512) at 1 by lia; rewrite N.mod_add by discriminate; reflexivity).
    rewrite D, M. replace (N.to_nat ((i - 512) / 512 + 1)) with (S (N.to_nat ((i - 512) / 512))) by lia. cbn [nth_error].
    specialize (IH (i - 512) Hrest). unfold bigarr_get in IH. rewrite N.shiftr_div_pow2 in IH. change (2 ^ 9) with 512 in IH.
    change 0x1ff with (N.ones 9) in IH. rewrite N.land_ones in IH. change (2 ^ 9) with 512 in IH. apply IH.
    destruct rest as [|q' rest]; [cbn [concat length]; lia|]. rewrite (Hfull ltac:(discriminate)) in Hi. lia.
Qed.

Definition data_at (gs : glyphset) : N := match gs with Emoji => 1149404 | Bold => 1514316 | Regular => 1520320 | Small => 1525968 | Hanzi => 1530252 end.
Definition data_size (gs : glyphset) : N := match gs with Emoji => 91228 | Bold => 1501 | Regular => 1412 | Small => 1071 | Hanzi => 276441 end.
Definition data_piece (gs : glyphset) : nat := match gs with Emoji => 80 | Bold => 81 | Regular => 82 | Small => 83 | Hanzi => 84 end.
Lemma data_length gs : N.of_nat (length (concat (f_data (blitstr_fonts gs)))) = data_size gs.
Proof. rewrite <- arr_size_ok. destruct gs; vm_compute; reflexivity. Qed.
Lemma data_words m gs : statics m -> words_at m (data_at gs) (concat (f_data (blitstr_fonts gs))).
Proof. intros H. apply (statics_words m (data_piece gs)); [exact H|destruct gs; reflexivity|destruct gs; reflexivity]. Qed.
Lemma data_get m gs i : statics m -> bigarr_get (f_data (blitstr_fonts gs)) i =
  if i <? data_size gs then Ret (load32 m (data_at gs + 4 * i)) else Panic.
Proof.
  intros H. assert (P := fo_pieces _ (fs_fonts _ fonts_ok gs)). assert (L := data_length gs). destruct (N.ltb_spec i (data_size gs)) as [C|C].
  - rewrite bigarr_get_ok by (assumption || lia). rewrite (data_words m gs H) by lia. reflexivity.
  - apply bigarr_panic; [exact P|lia].
Qed.
Lemma data_fits gs : data_at gs + 4 * data_size gs <= 2686976. Proof. destruct gs; vm_compute; discriminate. Qed.
Lemma uadd_wrap a b : uadd wasm32 a b = Ret (add32 a b).
Proof.
  unfold uadd. replace (usize_limit wasm32) with W by reflexivity. unfold add32. destruct (N.ltb_spec (a + b) W) as [A|A]; [|reflexivity].
  rewrite N.mod_small by exact A. reflexivity.
Qed.

Theorem nth_word_compiled m g gs o n : statics m ->
  fwp demo_env 32 [set_code gs; o; n] g m (fun r =>
    r = match nth_word wasm32 (blitstr_fonts gs) o n with Ret v => Some ([v], g, m) | Panic => None end).
Proof.
  intros H. unfold nth_word. rewrite uadd_wrap. cbn [bind]. rewrite (data_get m gs _ H). replace (add32 o n) with (add32 n o) by (unfold add32; f_equal; lia).
  match goal with |- fwp _ _ _ _ _ ?r => set (R := r) end.
  eapply fwp_intro; [reflexivity|reflexivity|]. cbn [fn_body fn_results]. unfold enter. cbn [fn_locals repeat app].
  unfold f32, f32_1, f32_2, f32_3, f32_4, f32_5, f32_6, f32_7, f32_8, f32_9, f32_10. do 11 apply wp_block. crun.
  assert (D := data_fits gs). set (i := add32 n o) in *.
  assert (K : forall l2, i < data_size gs -> wp demo_env f32_22 (St [l2; add32 (ishl i 2) (data_at gs); n] g m []) (finish 1 R)).
  { intros l2 C. crun. rewrite ishl2_small by (unfold W; lia). rewrite (add32_small _ (data_at gs)) by (unfold W; lia).
    eapply wp_load; [reflexivity|lia|]. apply wp_nil. next. unfold R. destruct (N.ltb_spec i (data_size gs)); [|lia]. rewrite N.add_0_r, (N.add_comm (4 * i)). reflexivity. }
  assert (P : data_size gs <= i -> finish 1 R Trap).
  { intros C. next. unfold R. destruct (N.ltb_spec i (data_size gs)); [lia|reflexivity]. }
  destruct gs; apply wp_br_table;
    match goal with |- context [Branch (nth ?a ?b ?c)] => let v := eval vm_compute in (nth a b c) in change (nth a b c) with v end;
    cbn [data_at data_size] in *; next; crun; fold i;
    apply wp_if; intros Z; first [apply N.ltb_lt in Z|apply N.ltb_ge in Z]; next; try code; run;
    try (apply wp_panic6; next; apply P; lia); try apply wp_br; try (apply wp_nil); next; apply K; lia.
Qed.
