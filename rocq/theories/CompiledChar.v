(** * The compiled xor_char: finding the glyph *)
From Coq Require Import ZArith.
From Verif Require Import PrimFacts Str M3Hash FontDefs Geom FbFacts Blit Webasm WebasmLogic DemoCode SpecCompiled CompiledBase CompiledHash
  CompiledFind DemoFile CompiledFile CompiledTables Fonts CompiledFirst.

(** ** The code that follows a nest of blocks, innermost first *)
Fixpoint under (l : list (list instr)) (Q : outcome -> Prop) : outcome -> Prop :=
  match l with [] => Q | r :: rest => WebasmLogic.after demo_env r [] (under rest Q) end.
Lemma under_br l (Q : outcome -> Prop) : forall k r s, nth_error l k = Some r -> wp demo_env r (restack s []) (under (skipn (S k) l) Q) -> under l Q (Branch k s).
Proof. induction l as [|x l IH]; intros [|k] r s E H; cbn [nth_error] in E; try discriminate; cbn [under after]; [injection E as ->; exact H|]. apply (IH k r); [exact E|exact H]. Qed.
Lemma under_trap l (Q : outcome -> Prop) : Q Trap -> under l Q Trap.
Proof. induction l as [|x l IH]; intros H; [exact H|exact (IH H)]. Qed.
Lemma under_end l (Q : outcome -> Prop) r s : nth_error l 0 = Some r -> wp demo_env r (restack s []) (under (skipn 1 l) Q) -> under l Q (Done s).
Proof. destruct l as [|x l]; [discriminate|]. cbn [nth_error]. intros E H. injection E as ->. exact H. Qed.
Definition nest : list (list instr) := [f27_57; f27_74; f27_184; f27_206; f27_226; f27_246; f27_247; f27_248; f27_249; f27_250; f27_251; f27_252;
  f27_253; f27_254; f27_255; f27_256; f27_257; f27_258; f27_259; f27_260; f27_261; f27_262; f27_263; f27_264; f27_265; f27_266; f27_267; f27_268;
  f27_269; f27_270; f27_271; f27_272; f27_273; f27_274; f27_275; f27_276; f27_277; f27_278; f27_279; f27_304; f27_305; f27_308; f27_309; f27_312;
  f27_331; f27_332; f27_333; f27_334; f27_335; f27_336; f27_337; f27_338; f27_339; f27_340; f27_341; f27_342].
(** What follows the code at depth [n] *)
Definition below (n : nat) : list (list instr) := skipn (56 - n) nest.

Lemma range_test' c lo hi : c < 0x110000 -> lo <= hi -> hi < 0x110000 -> lo <> 0 -> (add32 c (W - lo) <? hi - lo + 1) = (lo <=? c) && (c <=? hi).
Proof.
  intros A B C D. rewrite range_test by lia. f_equal. destruct (N.ltb_spec c (lo + (hi - lo + 1))), (N.leb_spec c hi); lia || reflexivity.
Qed.
Lemma mask_test' c k v : c < 2097152 -> k <= 21 -> (N.land c (2097152 - 2 ^ k) =? v * 2 ^ k) = (v * 2 ^ k <=? c) && (c <=? (v + 1) * 2 ^ k - 1).
Proof.
  intros A B. rewrite mask_test by assumption. f_equal. assert (P : 2 ^ k <> 0) by (apply N.pow_nonzero; discriminate).
  assert ((v + 1) * 2 ^ k <> 0) by nia. destruct (N.ltb_spec c ((v + 1) * 2 ^ k)), (N.leb_spec c ((v + 1) * 2 ^ k - 1)); lia || reflexivity.
Qed.

Lemma str_len_bytes s : N.of_nat (length (flat_map utf8 s)) = str_len s.
Proof.
  induction s as [|c s IH]; [reflexivity|]. cbn [flat_map]. rewrite app_length, Nat2N.inj_add, IH. cbn [str_len]. f_equal.
  unfold utf8, len_utf8. destruct (c <? 128); [reflexivity|]. destruct (c <? 2048); [reflexivity|]. destruct (c <? 65536); reflexivity.
Qed.

Section Dispatch.
Variables (gs : glyphset) (c0 : N) (s0 : str) (p ret clipp curp l6 l7 l8 l9 l16 l17 l18 l19 l20 l21 l22 l23 : N) (g0 : list N) (m : memory).
Let s := c0 :: s0.
Let len := str_len s.
Let g := l6 :: g0.
Hypothesis (Hl6 : 16 <= l6) (Hl6' : l6 + 352 <= 1048576) (Hst : statics m) (Hok : bytes_ok m).
Hypothesis (Hch : chars s) (Hat : str_at m p s) (Hp : p + len <= 2686976) (Hdis : p + len <= l6 - 16 \/ l6 + 352 <= p).

Notation stt l3 l4 l10 l11 l12 l13 l14 l15 m' :=
  (St [ret; clipp; curp; l3; l4; set_code gs; l6; l7; l8; l9; l10; l11; l12; l13; l14; l15; l16; l17; l18; l19; l20; l21; l22; l23] g m' []) (only parsing).

(** The memory differs from the one at the start in the frame of the function only *)
Definition OK (m' : memory) : Prop := same_but (l6 - 16) (l6 + 352) m m' /\ bytes_ok m'.
Lemma ok_start : OK m. Proof. split; [apply same_refl|exact Hok]. Qed.
Lemma ok_statics m' : OK m' -> statics m'.
Proof. intros (A & _). eapply statics_same; [exact Hst|]. intros a B C. apply A. lia. Qed.
Lemma ok_str m' : OK m' -> str_at m' p s.
Proof.
  intros (A & _) i Hi. rewrite <- (Hat i Hi). apply A. unfold len in *. rewrite <- (str_len_bytes s) in Hdis. lia.
Qed.
Lemma ok_words m' k a l : OK m' -> nth_error demo_addrs k = Some a -> nth_error demo_pieces k = Some (Words l) -> words_at m' a l.
Proof. intros A B C. exact (proj1 (statics_words m' k a l (ok_statics m' A) B C)). Qed.

Variable Q : outcome -> Prop.
Let O := get_blit_pattern_offset (blitstr_fonts gs) s.
Hypothesis (Kp : forall off bytes m' l4 l11 l13 l15, O = Ret (Some (off, bytes)) -> off < data_size gs -> OK m' ->
  wp demo_env f27_305 (stt bytes l4 (data_at gs + 4 * off) l11 (set_code gs) l13 off l15 m') (under (below 15) Q)).
Hypothesis (Kt : forall off bytes, O = Ret (Some (off, bytes)) -> data_size gs <= off -> Q Trap).
Hypothesis (Ke : forall m' l3 l4 l11 l12 l13 l14 l15, O = Ret None -> OK m' -> wp demo_env f27_342 (stt l3 l4 1 l11 l12 l13 l14 l15 m') Q).

Ltac hop := (eapply under_br; [reflexivity|]); unfold restack; cbn [locals globals mem stack].
Ltac go := first [apply wp_br; eapply under_br; [reflexivity|] | apply wp_nil; eapply under_end; [reflexivity|]]; unfold restack; cbn [locals globals mem stack].

Lemma err3 m' l3 l4 l10 l11 l12 l13 l14 l15 : O = Ret None -> OK m' ->
  wp demo_env f27_339 (stt l3 l4 l10 l11 l12 l13 l14 l15 m') (under (below 3) Q).
Proof. intros H K. crun. go. apply Ke; assumption. Qed.

Lemma join27 m' off bytes l4 l10 l11 l12 l13 l15 : O = Ret (Some (off, bytes)) -> OK m' -> l12 = set_code gs -> off < W ->
  wp demo_env f27_269 (stt bytes l4 l10 l11 l12 l13 off l15 m') (under (below 27) Q).
Proof.
  intros H K -> Ho. assert (Df := data_fits gs). crun. apply wp_not_taken; [destruct gs; reflexivity|]. run.
  assert (P : forall l10 l, l10 = add32 (ishl off 2) (data_at gs) -> off < data_size gs -> l = (below 15) ->
    wp demo_env f27_305 (stt bytes l4 l10 l11 (set_code gs) l13 off l15 m') (under l Q)).
  { intros l10' l -> Hs ->. rewrite ishl2_small by (unfold W; lia). rewrite add32_small by (unfold W; lia). rewrite N.add_comm. apply (Kp _ bytes); assumption. }
  assert (T : forall l, data_size gs <= off -> under l Q Trap) by (intros l Hs; apply under_trap; exact (Kt _ _ H Hs)).
  apply wp_br_table. destruct gs; cbn [data_at data_size set_code] in *;
    match goal with |- context [Branch (nth ?a ?b ?c)] => let v := eval vm_compute in (nth a b c) in change (nth a b c) with v end;
    (eapply under_br; [reflexivity|]); unfold restack; cbn [locals globals mem stack].
  - crun. apply wp_if; intros Z; [|apply N.leb_gt in Z; run; apply wp_panic6; apply T; lia]. apply N.leb_le in Z.
    hop. crun. go. apply P; [reflexivity|lia|reflexivity].
  - crun. apply wp_if; intros Z; [|apply N.leb_gt in Z; run; apply wp_panic6; apply T; lia]. apply N.leb_le in Z.
    hop. crun. go. apply P; [reflexivity|lia|reflexivity].
  - crun. apply wp_if; intros Z; [|apply N.leb_gt in Z; run; apply wp_panic6; apply T; lia]. apply N.leb_le in Z.
    hop. crun. go. apply P; [reflexivity|lia|reflexivity].
  - crun. apply wp_if; intros Z.
    + apply N.ltb_lt in Z. hop. crun. apply wp_panic6. apply T. lia.
    + apply N.ltb_ge in Z. go. crun. go. apply P; [reflexivity|lia|reflexivity].
  - crun. apply wp_if; intros Z.
    + apply N.leb_le in Z. hop. crun. apply wp_panic6. apply T. lia.
    + apply N.leb_gt in Z. run. go. apply P; [reflexivity|lia|reflexivity].
Qed.

(** ** Calls *)
Lemma find_code f k b limit o is m1 l10 l11 l12 l13 l14 l15 (P : outcome -> Prop) :
  In (f, gs, k) find_functions -> nth_error (f_blocks (blitstr_fonts gs)) k = Some b -> limit < W -> o + 12 <= 352 -> OK m1 ->
  (forall m2 a, OK m2 -> find_in_block 0 b s limit = Ret a -> found_at m2 (l6 + o) a -> wp demo_env is (stt p len l10 l11 l12 l13 l14 l15 m2) P) ->
  wp demo_env (ILGet 6 :: IConst o :: IBin Add :: ILGet 3 :: ILGet 4 :: IConst limit :: ICall f :: is) (stt p len l10 l11 l12 l13 l14 l15 m1) P.
Proof.
  intros Hi Hb Hl Ho K H. run. rewrite (add32_small l6 o) by (unfold W; lia).
  assert (Hf : exists fn, nth_error (e_funcs demo_env) f = Some fn /\ fn_params fn = 4%nat).
  { clear -Hi. cbn [e_funcs demo_env]. unfold find_functions in Hi.
    repeat match type of Hi with In _ [] => destruct Hi | In _ (_ :: _) => apply in_inv in Hi; destruct Hi as [Hi|Hi]; [injection Hi as <- <- <-; eexists; split; reflexivity|] end. }
  destruct Hf as (fn & F1 & F2). eapply wp_call; [exact F1|rewrite F2; reflexivity|]. cbn [rev firstn skipn app].
  eapply fwp_mono; [|apply (find_compiled m1 l6 (l6 + o) p limit g0 s (ok_statics m1 K) ltac:(lia) ltac:(lia) ltac:(lia) ltac:(lia) Hch (ok_str m1 K) Hp Hl f gs k b Hi Hb)].
  intros r (m2 & a & -> & A & B & C & D). cbn [app]. destruct K as (K1 & K2). apply (H m2 a); [|exact A|exact B].
  split; [|exact (D K2)]. intros x Hx. rewrite C by lia. apply K1. exact Hx.
Qed.

Let key := fst (grapheme_cluster s 0 1).
Let byt := snd (grapheme_cluster s 0 1).
Lemma key_small : key < W. Proof. apply gc_lt. fold len. unfold W; lia. Qed.
Lemma byt_small : byt < W. Proof. assert (A := gc_lt s 1 ltac:(fold len; unfold W; lia)). fold len byt in A. unfold W in *. lia. Qed.
Lemma hash_code o is m1 l10 l11 l12 l13 l14 l15 (P : outcome -> Prop) : o + 8 <= 352 -> OK m1 ->
  (forall m2, OK m2 -> load32 m2 (l6 + o) = key -> load32 m2 (l6 + (o + 4)) = byt -> wp demo_env is (stt p len l10 l11 l12 l13 l14 l15 m2) P) ->
  wp demo_env (ILGet 6 :: IConst o :: IBin Add :: ILGet 3 :: ILGet 4 :: IConst 1 :: ICall 5 :: is) (stt p len l10 l11 l12 l13 l14 l15 m1) P.
Proof.
  intros Ho K H. run. rewrite (add32_small l6 o) by (unfold W; lia). eapply wp_call; [reflexivity|reflexivity|]. cbn [rev firstn skipn app].
  eapply fwp_mono; [|apply hash_compiled; [exact Hch|exact (ok_str m1 K)|exact Hp|lia|reflexivity]]. intros r ->. fold key byt. cbn [app]. destruct K as (K1 & K2). apply H.
  - split; [|repeat apply store_ok; exact K2]. intros x Hx. unfold store32. rewrite !store_other by lia. apply K1. exact Hx.
  - apply load32_same. exact key_small.
  - replace (l6 + (o + 4)) with (l6 + o + 4) by lia. rewrite load32_other by lia. apply load32_same. exact byt_small.
Qed.

(** ** Tables *)
Lemma find_key b : find_in_block 0 b s 1 =
  match binary_search (b_hash b) key with Some i => o <- aget (b_offset b) i ;; Ret (Some (o, byt)) | None => Ret None end.
Proof. unfold find_in_block, murmur3, key, byt. destruct (grapheme_cluster s 0 1). reflexivity. Qed.
Lemma find_one b h o : b_hash b = [h] -> b_offset b = [o] -> find_in_block 0 b s 1 = Ret (if key =? h then Some (o, byt) else None).
Proof.
  intros E F. rewrite find_key, E, F. rewrite (N.eqb_sym key h). change (binary_search [h] key) with (if h =? key then Some 0 else None).
  destruct (h =? key); reflexivity.
Qed.
Lemma find_two b h0 h1 o0 o1 : b_hash b = [h0; h1] -> b_offset b = [o0; o1] ->
  find_in_block 0 b s 1 = Ret (if key <? h1 then if h0 =? key then Some (o0, byt) else None else if h1 =? key then Some (o1, byt) else None).
Proof.
  intros E F. rewrite find_key, E, F.
  assert (B : binary_search [h0; h1] key = if key <? h1 then if h0 =? key then Some 0 else None else if h1 =? key then Some 1 else None).
  { unfold binary_search. change (N.of_nat (length [h0; h1])) with 2. change (length [h0; h1]) with 2%nat.
    rewrite (bs_step 1 _ key 0 2 h1) by reflexivity. change (2 - N.div2 2) with 1. rewrite bs_one. destruct (key <? h1); reflexivity. }
  rewrite B. destruct (key <? h1); [destruct (h0 =? key)|destruct (h1 =? key)]; reflexivity.
Qed.

Section Table.
Variables (b : block) (kh ko : nat) (hash off n : N).
Hypothesis (A1 : nth_error demo_addrs kh = Some hash) (P1 : nth_error demo_pieces kh = Some (Words (b_hash b))).
Hypothesis (A2 : nth_error demo_addrs ko = Some off) (P2 : nth_error demo_pieces ko = Some (Words (b_offset b))).
Hypothesis (L : Nat.eqb (length (b_offset b)) (length (b_hash b)) = true) (Hn : N.of_nat (length (b_hash b)) = n).

Lemma search_code m1 (Km : OK m1) is l15 (P : outcome -> Prop) l12 bytes : forall fuel base size l11 l13,
  1 < size -> size <= N.of_nat fuel -> base + size <= n ->
  (forall l4 l11 l13, wp demo_env is (stt bytes l4 (bs_loop fuel (b_hash b) key base size) l11 l12 l13 key l15 m1) P) ->
  wp demo_env (ILoop (search_loop hash) :: is) (stt bytes size base l11 l12 l13 key l15 m1) P.
Proof.
  assert (Hs := ok_words m1 kh hash _ Km A1 P1). destruct (statics_words m1 kh _ _ (ok_statics m1 Km) A1 P1) as (_ & _ & _ & Hh). rewrite Hn in Hh. unfold FB in Hh.
  induction fuel as [|fuel IH]; intros base size l11 l13 H1 H2 H3 HQ; [lia|].
  destruct (div2_half size H1) as (A & B & C).
  assert (E : exists v, nth_error (b_hash b) (N.to_nat (base + N.div2 size)) = Some v).
  { destruct (nth_error (b_hash b) _) as [v|] eqn:E; [eauto|]. apply nth_error_None in E. lia. }
  destruct E as (v & E). assert (V : load32 m1 (hash + 4 * (base + N.div2 size)) = v).
  { rewrite Hs by lia. apply nth_error_nth. exact E. }
  apply wp_loop_step. crun. change (ishr size 1) with (N.shiftr size 1). rewrite <- N.div2_spec.
  rewrite (add32_small (N.div2 size) base) by (unfold W; lia). rewrite (N.add_comm (N.div2 size) base).
  rewrite (ishl2_small) by (unfold W; lia). rewrite (add32_small (4 * _) hash) by (unfold W; lia).
  eapply wp_load; [rewrite N.add_0_r, (N.add_comm _ hash); exact V|lia|]. run.
  rewrite (sub32_small size) by (unfold W; lia).
  assert (X : (if b2n (key <? v) =? 0 then base + N.div2 size else base) = (if key <? v then base else base + N.div2 size)) by (destruct (key <? v); reflexivity).
  rewrite X. rewrite (bs_step fuel (b_hash b) key base size v H1 E) in HQ.
  set (base' := if key <? v then base else base + N.div2 size) in *.
  assert (Y : base' + (size - N.div2 size) <= n) by (unfold base'; destruct (key <? v); lia).
  apply wp_if; intros Z.
  - next. apply N.ltb_lt in Z. apply IH; try assumption; lia.
  - apply wp_nil. next. apply N.ltb_ge in Z. replace (size - N.div2 size) with 1 in HQ |- * by lia. rewrite bs_one in HQ. apply HQ.
Qed.

Lemma inline_code o o4 jp je is m1 l10 l11 l12 l13 l14 l15 (P : outcome -> Prop) : o + 8 <= 352 -> o4 = o + 4 -> OK m1 -> 1 < n ->
  (forall m2 l3 l4 l10 l11 l13 l14, OK m2 -> find_in_block 0 b s 1 = Ret None -> P (Branch je (stt l3 l4 l10 l11 l12 l13 l14 l15 m2))) ->
  (forall m2 v i l4 l11 l13, OK m2 -> find_in_block 0 b s 1 = Ret (Some (v, byt)) -> i < n -> load32 m2 (4 * i + off) = v -> v < W -> off + 4 * n <= FB ->
    wp demo_env is (stt byt l4 i l11 l12 l13 key l15 m2) P) ->
  wp demo_env (ILGet 6 :: IConst o :: IBin Add :: ILGet 3 :: ILGet 4 :: IConst 1 :: ICall 5 :: IConst 0 :: ILSet 10 ::
    IConst n :: ILSet 4 :: ILGet 6 :: ILoad o4 :: ILSet 3 :: ILGet 6 :: ILoad o :: ILSet 14 :: ILoop (search_loop hash) ::
    ILGet 10 :: IConst 2 :: IBin Shl :: IConst hash :: IBin Add :: ILoad 0 :: ILGet 14 :: IBin Ne :: IBrIf je
    :: ILGet 10 :: IConst n :: IBin GeU :: IBrIf jp :: is) (stt p len l10 l11 l12 l13 l14 l15 m1) P.
Proof.
  intros Ho -> Km H1 HN HS. apply hash_code; [exact Ho|exact Km|]. intros m2 K2 B1 B2. run.
  eapply wp_load; [exact B2|lia|]. run. eapply wp_load; [exact B1|lia|]. run.
  destruct (statics_words m2 kh _ _ (ok_statics m2 K2) A1 P1) as (T1 & _ & _ & Hh). rewrite Hn in Hh.
  destruct (statics_words m2 ko _ _ (ok_statics m2 K2) A2 P2) as (T2 & S2 & _ & Ho2). assert (L' := proj1 (Nat.eqb_eq _ _) L). rewrite L', Hn in Ho2.
  apply (search_code m2 K2 _ _ _ _ _ (length (b_hash b))); try lia.
  assert (S : binary_search (b_hash b) key = let base := bs_loop (length (b_hash b)) (b_hash b) key 0 n in
    if nth (N.to_nat base) (b_hash b) 0 =? key then Some base else None).
  { unfold binary_search. destruct (bs_bounds (b_hash b) key (length (b_hash b)) 0 n ltac:(lia)) as (X1 & X2).
    rewrite Hn. cbn zeta. set (base := bs_loop _ _ _ _ _) in *. destruct (b_hash b) as [|x l] eqn:El; [cbn in Hn; lia|]. rewrite <- El in *.
    destruct (nth_error (b_hash b) (N.to_nat base)) as [v|] eqn:E; [rewrite (nth_error_nth _ _ 0 E); reflexivity|].
    apply nth_error_None in E. lia. }
  destruct (bs_bounds (b_hash b) key (length (b_hash b)) 0 n ltac:(lia)) as (X1 & X2). cbn zeta in S.
  set (base := bs_loop _ _ _ _ _) in *. intros l4 l11' l13'. run. unfold FB in *.
  rewrite ishl2_small by (unfold W; lia). rewrite !(add32_small (4 * base)) by (unfold W; lia).
  assert (T := T1 base ltac:(lia)). rewrite N.add_comm in T. eapply wp_load; [rewrite N.add_0_r; exact T|lia|]. run.
  assert (F := find_key b).
  apply wp_if; intros Z.
  - apply Bool.negb_true_iff in Z. rewrite Z in S. apply HN; [exact K2|]. rewrite F, S. reflexivity.
  - apply Bool.negb_false_iff in Z. rewrite Z in S. run. apply wp_not_taken; [apply N.leb_gt; lia|].
    apply (HS m2 (nth (N.to_nat base) (b_offset b) 0)); [exact K2| |lia| |apply (proj1 (Forall_forall _ _) S2); apply nth_In; lia|lia].
    + rewrite F, S. rewrite (aget_ok _ base 0) by lia. reflexivity.
    + rewrite N.add_comm. apply T2. lia.
Qed.
End Table.

(** ** Blocks of characters *)
Fixpoint from (l : list block) : res (option (N * N)) :=
  match l with [] => Ret None | b :: rest => if (b_low b <=? c0) && (c0 <=? b_high b) then try_limits 0 b s (b_limits b) else from rest end.
Lemma O_from : O = from (f_blocks (blitstr_fonts gs)).
Proof.
  unfold O, get_blit_pattern_offset, s. fold s. replace (f_seed (blitstr_fonts gs)) with 0 by (destruct gs; reflexivity).
  induction (f_blocks (blitstr_fonts gs)) as [|b l IH]; [reflexivity|]. cbn [find from]. destruct ((b_low b <=? c0) && (c0 <=? b_high b)); [reflexivity|exact IH].
Qed.
Lemma Hc0 : c0 < 0x110000. Proof. exact (Forall_inv Hch). Qed.
Lemma first_at : bytes_at m p (utf8 c0).
Proof. exact (proj1 (str_at_cons m p c0 s0 Hat)). Qed.
Lemma first_len : len_utf8 c0 <= len. Proof. unfold len, s. cbn [str_len]. lia. Qed.

Lemma wp_block_under b is l k m' L P : wp demo_env b (St l k m' []) (under (is :: L) P) -> wp demo_env (IBlock b :: is) (St l k m' []) (under L P).
Proof. apply wp_block. Qed.
Ltac nestin := repeat (code; apply wp_block_under).
Ltac loads F := eapply wp_load; [exact F|lia|].

Lemma none27 m' l3 l4 l10 l11 l13 l14 l15 : O = Ret None -> OK m' ->
  wp demo_env f27_269 (stt l3 l4 l10 l11 5 l13 l14 l15 m') (under (below 27) Q).
Proof. intros H K. crun. apply wp_taken; [reflexivity|]. hop. apply err3; assumption. Qed.

Lemma last_code f k b limit j L m1 l10 l11 l12 l13 l14 l15 :
  In (f, gs, k) find_functions -> nth_error (f_blocks (blitstr_fonts gs)) k = Some b -> limit < W -> OK m1 -> O = try_limits 0 b s [limit] ->
  set_code gs = 0 -> nth_error L j = Some f27_269 -> skipn (Datatypes.S j) L = below 27 ->
  wp demo_env (ILGet 6 :: IConst 336 :: IBin Add :: ILGet 3 :: ILGet 4 :: IConst limit :: ICall f :: IConst 0 :: IConst 5 :: ILGet 6 :: ILoad 336 ::
    IConst 1 :: IBin Eq :: ISelect :: ILSet 12 :: ILGet 6 :: IConst 344 :: IBin Add :: ILoad 0 :: ILSet 3 :: ILGet 6 :: ILoad 340 :: ILSet 14 :: IBr j :: [])
    (stt p len l10 l11 l12 l13 l14 l15 m1) (under L Q).
Proof.
  intros Hi Hb Hl K E Z N1 N2. eapply find_code; [exact Hi|exact Hb|exact Hl|lia|exact K|]. intros m2 a K2 A F. cbn [try_limits] in E. rewrite A in E. cbn [bind] in E.
  assert (F0 : load32 m2 (l6 + 336) = match a with Some _ => 1 | None => 0 end) by (destruct a as [(o1, b1)|]; [apply (proj1 F)|exact F]).
  run. loads F0. run. rewrite (add32_small l6 344) by (unfold W; lia).
  eapply wp_load; [rewrite N.add_0_r; reflexivity|lia|]. run. eapply wp_load; [reflexivity|lia|]. run.
  apply wp_br. eapply under_br; [exact N1|]. rewrite N2. unfold restack; cbn [locals globals mem stack].
  destruct a as [(o1, b1)|].
  - destruct F as (_ & F1 & F2). replace (l6 + 336 + 8) with (l6 + 344) in F2 by lia. replace (l6 + 336 + 4) with (l6 + 340) in F1 by lia. rewrite F1, F2.
    apply join27; [exact E|exact K2|rewrite Z; reflexivity|]. rewrite <- F1. apply load32_lt. exact (proj2 K2).
  - change (if b2n (0 =? 1) =? 0 then 5 else 0) with 5. apply none27; assumption.
Qed.
Lemma slot28 b m2 off bytes l4 l10 l11 l12 l13 l14 l15 : O = Ret (Some (off, bytes)) -> OK m2 -> set_code gs = 0 -> b = bytes ->
  load32 m2 (l6 + 324) = off ->
  wp demo_env f27_268 (stt b l4 l10 l11 l12 l13 l14 l15 m2) (under (below 28) Q).
Proof.
  intros E K Z -> F. crun. loads F. run. go. apply join27; [exact E|exact K|rewrite Z; reflexivity|]. rewrite <- F. apply load32_lt. exact (proj2 K).
Qed.

Lemma two_code f k b lim1 lim2 j L m1 l10 l11 l12 l13 l14 l15 :
  In (f, gs, k) find_functions -> nth_error (f_blocks (blitstr_fonts gs)) k = Some b -> lim1 < W -> lim2 < W -> OK m1 -> O = try_limits 0 b s [lim1; lim2] ->
  set_code gs = 0 -> nth_error L j = Some f27_268 -> skipn (Datatypes.S j) L = below 28 ->
  wp demo_env (ILGet 6 :: IConst 320 :: IBin Add :: ILGet 3 :: ILGet 4 :: IConst lim1 :: ICall f :: IBlock
    (ILGet 6 :: ILoad 320 :: IConst 1 :: IBin Eq :: IBrIf 0 :: ILGet 6 :: IConst 336 :: IBin Add :: ILGet 3 ::
     ILGet 4 :: IConst lim2 :: ICall f :: IConst 0 :: IConst 5 :: ILGet 6 :: ILoad 336 :: IConst 1 :: IBin Eq ::
     ISelect :: ILSet 12 :: ILGet 6 :: IConst 344 :: IBin Add :: ILoad 0 :: ILSet 3 :: ILGet 6 :: ILoad 340 ::
     ILSet 14 :: IBr (Datatypes.S (Datatypes.S j)) :: []) ::
     ILGet 6 :: IConst 328 :: IBin Add :: ILoad 0 :: ILSet 3 :: IBr j :: [])
    (stt p len l10 l11 l12 l13 l14 l15 m1) (under L Q).
Proof.
  intros Hi Hb Hl Hl2 K E Z N1 N2. eapply find_code; [exact Hi|exact Hb|exact Hl|lia|exact K|]. intros m2 a K2 A F. cbn [try_limits] in E. rewrite A in E. cbn [bind] in E.
  assert (F0 : load32 m2 (l6 + 320) = match a with Some _ => 1 | None => 0 end) by (destruct a as [(o1, b1)|]; [apply (proj1 F)|exact F]).
  apply wp_block_under. run. loads F0. run. destruct a as [(o1, b1)|].
  - destruct F as (_ & F1 & F2). replace (l6 + 320 + 8) with (l6 + 328) in F2 by lia. replace (l6 + 320 + 4) with (l6 + 324) in F1 by lia.
    apply wp_taken; [reflexivity|]. hop. run. rewrite (add32_small l6 328) by (unfold W; lia). eapply wp_load; [rewrite N.add_0_r; exact F2|lia|]. run.
    apply wp_br. eapply under_br; [exact N1|]. cbn [skipn] in *. rewrite N2. unfold restack; cbn [locals globals mem stack].
    apply (slot28 _ _ o1 b1); [exact E|exact K2|exact Z|reflexivity|exact F1].
  - apply wp_not_taken; [reflexivity|].
    assert (N3 : nth_error L (Datatypes.S j) = Some f27_269 /\ skipn (Datatypes.S (Datatypes.S j)) L = below 27).
    { clear -N2. revert j N2. induction L as [|x L IH]; intros j N2; [destruct j; discriminate|]. destruct j as [|j].
      - cbn [skipn] in N2. rewrite N2. split; reflexivity.
      - cbn [nth_error]. exact (IH j N2). }
    eapply last_code; [exact Hi|exact Hb|exact Hl2|exact K2|exact E|exact Z|exact (proj1 N3)|exact (proj2 N3)].
Qed.

Lemma tail_code off n i v is m2 l3 l4 l11 l12 l13 l14 l15 P : OK m2 -> i < n -> load32 m2 (4 * i + off) = v -> off + 4 * n <= FB ->
  wp demo_env is (stt l3 l4 i l11 l12 l13 v l15 m2) P ->
  wp demo_env (ILGet 10 :: IConst 2 :: IBin Shl :: IConst off :: IBin Add :: ILoad 0 :: ILSet 14 :: is) (stt l3 l4 i l11 l12 l13 l14 l15 m2) P.
Proof.
  intros K Hi Hv Ho H. unfold FB in Ho. run. rewrite ishl2_small by (unfold W; lia). rewrite add32_small by (unfold W; lia).
  eapply wp_load; [rewrite N.add_0_r; exact Hv|lia|]. eapply wp_pure; [reflexivity|exact H].
Qed.
Lemma find_limit1 b r : O = try_limits 0 b s [1] -> find_in_block 0 b s 1 = Ret r -> O = Ret r.
Proof. intros E F. rewrite E. cbn [try_limits]. rewrite F. destruct r; reflexivity. Qed.

Lemma test_low c lo hi : lo <= c -> (c <? hi + 1) = (lo <=? c) && (c <=? hi).
Proof. intros H. destruct (N.leb_spec lo c); [|lia]. destruct (N.ltb_spec c (hi + 1)), (N.leb_spec c hi); lia || reflexivity. Qed.
Lemma above c lo hi : (lo <=? c) && (c <=? hi) = false -> lo <= c -> hi + 1 <= c.
Proof. intros H K. destruct (N.leb_spec lo c); [|lia]. destruct (N.leb_spec c hi); [discriminate|lia]. Qed.

Ltac tested lo hi := match goal with
  | |- wp _ (IBrIf _ :: _) (St _ _ _ (b2n ?x :: _)) _ => replace x with ((lo <=? c0) && (c0 <=? hi))
      by (symmetry; first [apply (range_test' c0 lo hi); [exact Hc0|lia|lia|discriminate] | apply (test_low c0 lo hi); assumption])
  end.
Ltac ntested lo hi := match goal with
  | |- wp _ (IBrIf _ :: _) (St _ _ _ (b2n ?x :: _)) _ => replace x with (negb ((lo <=? c0) && (c0 <=? hi)))
      by (rewrite <- (range_test' c0 lo hi); [|exact Hc0|lia|lia|discriminate]; rewrite N.ltb_antisym, Bool.negb_involutive; reflexivity)
  end.
Ltac masked v k lo hi := match goal with
  | |- wp _ (IBrIf _ :: _) (St _ _ _ (b2n ?x :: _)) _ => replace x with ((lo <=? c0) && (c0 <=? hi)) by (symmetry; apply (mask_test' c0 k v); [pose proof Hc0; lia|lia])
  end.
Ltac branch HO := let Z := fresh "Z" in apply wp_if; intros Z; [rewrite Z in HO; hop; code | rewrite Z in HO; run].
Ltac nbranch HO := let Z := fresh "Z" in apply wp_if; intros Z; [apply Bool.negb_true_iff in Z; rewrite Z in HO; hop | apply Bool.negb_false_iff in Z; rewrite Z in HO].
Ltac table HO kh ko := match type of HO with O = try_limits 0 ?b s [1] =>
  eapply (inline_code b kh ko); [reflexivity|reflexivity|reflexivity|reflexivity|reflexivity|reflexivity|lia|reflexivity|assumption|lia|
    let m2 := fresh "m" in let K2 := fresh "K" in let F := fresh "F" in intros m2 ? ? ? ? ? ? K2 F; hop; apply err3; [apply (find_limit1 b _ HO F)|exact K2]|
    let m2 := fresh "m" in let K2 := fresh "K" in let F := fresh "F" in let Hi := fresh "Hi" in let Hv := fresh "Hv" in let Hn := fresh "Hn" in
    let Hw := fresh "Hw" in intros m2 ? ? ? ? ? K2 F Hi Hv Hw Hn; apply (find_limit1 b _ HO) in F] end.

Lemma hanzi_code l10 l11 l12 l13 l14 l15 : gs = Hanzi -> wp demo_env f27_57 (stt p len l10 l11 l12 l13 l14 l15 m) (under (below 55) Q).
Proof.
  intros Hgs. assert (HO := O_from). rewrite Hgs in HO.
  cbn [blitstr_fonts f_blocks FontHanzi.hanzi_font FontHanzi.hanzi_blocks from b_low b_high b_limits] in HO.
  apply (first_hanzi c0 p len m g); [exact Hc0|exact first_at|exact first_len|exact Hp|]. clear l11 l12 l13 l14 l15. intros l11 l12 l13 l14 l15. hop.
  assert (Fin : forall m' off bytes l4 l10 l11 l12 l13 l15, O = Ret (Some (off, bytes)) -> OK m' -> off < W ->
    wp demo_env f27_303 (stt bytes l4 l10 l11 l12 l13 off l15 m') (under (below 17) Q)).
  { intros m' off bytes l4' l10' l11' l12' l13' l15' E K Ho. assert (Df := data_fits gs). assert (Sz : data_size gs = 276441) by (rewrite Hgs; reflexivity).
    assert (Da : data_at gs = 1530252) by (rewrite Hgs; reflexivity). assert (Sc : 4 = set_code gs) by (rewrite Hgs; reflexivity).
    assert (P : forall a x, a = data_at gs + 4 * off -> x = set_code gs -> off < data_size gs ->
      wp demo_env f27_305 (stt bytes l4' a l11' x l13' off l15' m') (under (below 15) Q)) by (intros a x -> -> Hs; apply Kp; assumption).
    crun. go. crun. apply wp_if; intros Z.
    - apply N.leb_le in Z. hop. crun. apply wp_panic6. apply under_trap. apply (Kt _ _ E). lia.
    - apply N.leb_gt in Z. run. go. rewrite ishl2_small by (unfold W; lia). rewrite add32_small by (unfold W; lia). 
      apply P; [lia|exact Sc|lia]. }
  nestin. crun.
  assert (Ko := ok_start).
  masked 192 6 0x3000 0x303F. branch HO. { table HO 48%nat 49%nat. eapply tail_code; [eassumption..|]. go. apply Fin; assumption. }
  tested 0x3400 0x4DBF. branch HO. { table HO 50%nat 51%nat. eapply tail_code; [eassumption..|]. go. apply Fin; assumption. }
  tested 0x4E00 0x9FFF. branch HO. { table HO 52%nat 53%nat. eapply tail_code; [eassumption..|]. go. apply Fin; assumption. }
  tested 0xFF00 0xFFEF. branch HO. { table HO 54%nat 55%nat. eapply tail_code; [eassumption..|]. go. apply Fin; assumption. }
  tested 0x20000 0x2A6DF. branch HO. { table HO 56%nat 57%nat. eapply tail_code; [eassumption..|]. go. apply Fin; assumption. }
  tested 0x2A700 0x2B73F. branch HO. { table HO 58%nat 59%nat. eapply tail_code; [eassumption..|]. go. apply Fin; assumption. }
  tested 0x2B740 0x2B81F. branch HO. { table HO 60%nat 61%nat. eapply tail_code; [eassumption..|]. go. apply Fin; assumption. }
  ntested 0x2B820 0x2CEAF. nbranch HO. { apply err3; assumption. }
  table HO 62%nat 63%nat. eapply tail_code; [eassumption..|]. go. apply Fin; assumption.
Qed.

(** ** From the offset of a glyph to its words *)
Lemma placed a x off bytes m' l4 l11 l13 l15 L : O = Ret (Some (off, bytes)) -> OK m' -> off < data_size gs -> a = add32 (ishl off 2) (data_at gs) -> x = set_code gs ->
  L = below 15 -> wp demo_env f27_305 (stt bytes l4 a l11 x l13 off l15 m') (under L Q).
Proof.
  intros E K Hs -> -> ->. assert (Df := data_fits gs). rewrite ishl2_small by (unfold W; lia). rewrite add32_small by (unfold W; lia). rewrite N.add_comm.
  apply (Kp _ bytes); assumption.
Qed.
Ltac place := crun; go; (eapply placed; [eassumption|eassumption| | | |]).
Ltac at_font Hgs := rewrite Hgs; first [reflexivity | cbn [data_size]; lia].
Lemma place18 x off bytes m' l4 l10 l11 l13 l15 : gs = Emoji -> O = Ret (Some (off, bytes)) -> OK m' -> off < 91228 -> x = 0 ->
  wp demo_env f27_278 (stt bytes l4 l10 l11 x l13 off l15 m') (under (below 18) Q).
Proof. intros Hgs E K H ->. place; first [reflexivity | at_font Hgs]. Qed.
Lemma place20 x off bytes m' l4 l10 l11 l13 l15 : gs = Bold -> O = Ret (Some (off, bytes)) -> OK m' -> off < 1501 -> x = 1 ->
  wp demo_env f27_276 (stt bytes l4 l10 l11 x l13 off l15 m') (under (below 20) Q).
Proof. intros Hgs E K H ->. place; first [reflexivity | at_font Hgs]. Qed.
Lemma place24 x off bytes m' l4 l10 l11 l13 l15 : gs = Regular -> O = Ret (Some (off, bytes)) -> OK m' -> off < 1412 -> x = 2 ->
  wp demo_env f27_272 (stt bytes l4 l10 l11 x l13 off l15 m') (under (below 24) Q).
Proof. intros Hgs E K H ->. place; first [reflexivity | at_font Hgs]. Qed.
Lemma place22 x off bytes m' l4 l10 l11 l13 l15 : gs = Small -> O = Ret (Some (off, bytes)) -> OK m' -> off < 1071 -> x = 3 ->
  wp demo_env f27_274 (stt bytes l4 l10 l11 x l13 off l15 m') (under (below 22) Q).
Proof. intros Hgs E K H ->. place; first [reflexivity | at_font Hgs]. Qed.
Lemma too_far off bytes L : O = Ret (Some (off, bytes)) -> data_size gs <= off -> under L Q Trap.
Proof. intros E H. apply under_trap. exact (Kt _ _ E H). Qed.
Lemma size19 x off bytes m' l4 l10 l11 l13 l15 : gs = Emoji -> O = Ret (Some (off, bytes)) -> OK m' -> x = 0 ->
  wp demo_env f27_277 (stt bytes l4 l10 l11 x l13 off l15 m') (under (below 19) Q).
Proof.
  intros Hgs E K Hx. crun. apply wp_if; intros Z; [apply N.leb_le in Z; hop; apply place18; try assumption; lia|].
  apply N.leb_gt in Z. run. apply wp_panic6. apply (too_far _ _ _ E). rewrite Hgs. cbn [data_size]. lia.
Qed.
Lemma size26 x off bytes m' l4 l10 l11 l13 l15 : gs = Bold -> O = Ret (Some (off, bytes)) -> OK m' -> x = 1 ->
  wp demo_env f27_270 (stt bytes l4 l10 l11 x l13 off l15 m') (under (below 26) Q).
Proof.
  intros Hgs E K Hx. crun. apply wp_if; intros Z; [apply N.leb_le in Z; hop; apply place20; try assumption; lia|].
  apply N.leb_gt in Z. run. apply wp_panic6. apply (too_far _ _ _ E). rewrite Hgs. cbn [data_size]. lia.
Qed.
Lemma size25 x off bytes m' l4 l10 l11 l13 l15 : gs = Regular -> O = Ret (Some (off, bytes)) -> OK m' -> x = 2 ->
  wp demo_env f27_271 (stt bytes l4 l10 l11 x l13 off l15 m') (under (below 25) Q).
Proof.
  intros Hgs E K Hx. crun. apply wp_if; intros Z; [apply N.leb_le in Z; hop; apply place24; try assumption; lia|].
  apply N.leb_gt in Z. run. apply wp_panic6. apply (too_far _ _ _ E). rewrite Hgs. cbn [data_size]. lia.
Qed.
Lemma size23 x off bytes m' l4 l10 l11 l13 l15 : gs = Small -> O = Ret (Some (off, bytes)) -> OK m' -> x = 3 ->
  wp demo_env f27_273 (stt bytes l4 l10 l11 x l13 off l15 m') (under (below 23) Q).
Proof.
  intros Hgs E K Hx. crun. apply wp_if; intros Z; [apply N.ltb_lt in Z; hop; crun; apply wp_panic6; apply (too_far _ _ _ E); rewrite Hgs; cbn [data_size]; lia|].
  apply N.ltb_ge in Z. apply wp_nil. eapply under_end; [reflexivity|]. unfold restack; cbn [locals globals mem stack]. apply place22; try assumption; lia.
Qed.
Lemma try_step b l rest a : O = try_limits 0 b s (l :: rest) -> find_in_block 0 b s l = Ret a -> O = match a with Some hit => Ret (Some hit) | None => try_limits 0 b s rest end.
Proof. intros -> E. cbn [try_limits]. rewrite E. reflexivity. Qed.

(** ** The emoji font *)
Ltac member Hgs := rewrite Hgs; cbv; tauto.
Ltac pick HO Hgs k := match type of HO with O = try_limits 0 ?bb s _ => eapply (two_code _ k bb) end; [member Hgs|rewrite Hgs; reflexivity|reflexivity|reflexivity|assumption|exact HO|rewrite Hgs; reflexivity|reflexivity|reflexivity].

Ltac final HO Hgs k := match type of HO with O = try_limits 0 ?bb s _ => eapply (last_code _ k bb) end;
  [member Hgs|rewrite Hgs; reflexivity|reflexivity|assumption|exact HO|rewrite Hgs; reflexivity|reflexivity|reflexivity].
Ltac found HO Hgs K F1 F2 := apply wp_taken; [reflexivity|]; hop; crun; rewrite (add32_small l6) by (unfold W; lia); rewrite ?add32_small by (unfold W; lia);
  (eapply wp_load; [etransitivity; [|exact F2]; f_equal; lia|lia|]); run;
  match goal with |- wp _ (IBr _ :: _) _ _ => go; crun | _ => idtac end;
  (eapply wp_load; [etransitivity; [|exact F1]; f_equal; lia|lia|]); run; go;
  apply join27; [exact HO|exact K|rewrite Hgs; reflexivity|rewrite <- F1; apply load32_lt; exact (proj2 K)].
Ltac call HO Hgs k := match type of HO with O = try_limits 0 ?bb s _ =>
  eapply (find_code _ k bb); [member Hgs|rewrite Hgs; reflexivity|reflexivity|lia|assumption|];
  let m2 := fresh "m" in let a := fresh "a" in let K := fresh "K" in let A := fresh "A" in let F := fresh "F" in
  let F0 := fresh "F" in let F1 := fresh "F" in let F2 := fresh "F" in let o := fresh "o" in let y := fresh "y" in
  intros m2 a K A F; apply (try_step bb _ _ _ HO) in A; clear HO; rename A into HO; try (apply wp_block_under; nestin; code); run;
  destruct a as [(o, y)|];
  [destruct F as (F0 & F1 & F2); (eapply wp_load; [exact F0|lia|]); run; found HO Hgs K F1 F2
  |(eapply wp_load; [exact F|lia|]); run; apply wp_not_taken; [reflexivity|]] end.
Ltac step := eapply wp_pure; [cbn [pure bin upd nth_error]; reflexivity|].
Lemma single_code b h o0 o je is m1 l10 l11 l12 l13 l14 l15 (P : outcome -> Prop) : O = try_limits 0 b s [1] -> b_hash b = [h] -> b_offset b = [o0] ->
  o + 8 <= 352 -> OK m1 ->
  (forall m2, OK m2 -> O = Ret None -> P (Branch je (stt p len l10 l11 l12 l13 l14 l15 m2))) ->
  (forall m2, OK m2 -> O = Ret (Some (o0, byt)) -> load32 m2 (l6 + (o + 4)) = byt -> wp demo_env is (stt p len l10 l11 l12 l13 l14 l15 m2) P) ->
  wp demo_env (ILGet 6 :: IConst o :: IBin Add :: ILGet 3 :: ILGet 4 :: IConst 1 :: ICall 5 :: ILGet 6 :: ILoad o :: IConst h :: IBin Ne :: IBrIf je :: is)
    (stt p len l10 l11 l12 l13 l14 l15 m1) P.
Proof.
  intros HO Hh Ho Hs K HN HS. apply hash_code; [exact Hs|exact K|]. intros m2 K2 F0 F1.
  assert (E := find_limit1 b _ HO (find_one b h o0 Hh Ho)). step. loads F0. step. step. apply wp_if; intros Z.
  - apply Bool.negb_true_iff in Z. rewrite Z in E. apply HN; assumption.
  - apply Bool.negb_false_iff in Z. rewrite Z in E. apply HS; assumption.
Qed.
Lemma pair_inline b h0 h1 o0 o1 kh ko hash off o o4 je is m2 l3 l4 l10 l11 l12 l13 l14 l15 (P : outcome -> Prop) : O = try_limits 0 b s [1] ->
  b_hash b = [h0; h1] -> b_offset b = [o0; o1] -> 0 < h1 ->
  nth_error demo_addrs kh = Some hash -> nth_error demo_pieces kh = Some (Words (b_hash b)) ->
  nth_error demo_addrs ko = Some off -> nth_error demo_pieces ko = Some (Words (b_offset b)) ->
  o + 8 <= 352 -> o4 = o + 4 -> OK m2 -> load32 m2 (l6 + o) = key -> load32 m2 (l6 + (o + 4)) = byt ->
  (forall l4 l13, O = Ret None -> P (Branch je (stt l3 l4 l10 l11 l12 l13 l14 l15 m2))) ->
  (forall v l4 l13, O = Ret (Some (v, byt)) -> v < W -> wp demo_env is (stt byt l4 l10 l11 l12 l13 v l15 m2) P) ->
  wp demo_env (ILGet 6 :: ILoad o :: ILTee 4 :: IConst (h1 - 1) :: IBin GtU :: IConst 2 :: IBin Shl :: ILTee 13 ::
    IConst hash :: IBin Add :: ILoad 0 :: ILGet 4 :: IBin Ne :: IBrIf je :: ILGet 6 :: ILoad o4 :: ILSet 3 ::
    ILGet 13 :: IConst off :: IBin Add :: ILoad 0 :: ILSet 14 :: is)
    (stt l3 l4 l10 l11 l12 l13 l14 l15 m2) P.
Proof.
  intros HO Hh Ho H1 A1 P1 A2 P2 Hs -> K F0 F1 HN HS. assert (E := find_limit1 b _ HO (find_two b h0 h1 o0 o1 Hh Ho)).
  destruct (statics_words m2 kh _ _ (ok_statics m2 K) A1 P1) as (T1 & _ & _ & B1). destruct (statics_words m2 ko _ _ (ok_statics m2 K) A2 P2) as (T2 & S2 & _ & B2).
  rewrite Hh in *. rewrite Ho in *. unfold FB in *. change (N.of_nat (length [h0; h1])) with 2 in *. change (N.of_nat (length [o0; o1])) with 2 in *.
  run. loads F0. run. set (base := b2n (h1 - 1 <? key)).
  assert (Bn : base = 0 /\ key < h1 \/ base = 1 /\ h1 <= key) by (unfold base; destruct (N.ltb_spec (h1 - 1) key); cbn [b2n]; lia).
  rewrite ishl2_small by (unfold W; lia). rewrite !(add32_small (4 * base)) by (unfold W; lia).
  assert (T := T1 base ltac:(change (N.of_nat (length [h0; h1])) with 2; lia)). rewrite N.add_comm in T.
  eapply wp_load; [rewrite N.add_0_r; exact T|lia|]. run.
  apply wp_if; intros Z.
  - apply Bool.negb_true_iff in Z. apply HN. rewrite E. destruct Bn as [[-> X]|[-> X]]; change (nth (N.to_nat 0) [h0; h1] 0) with h0 in Z; change (nth (N.to_nat 1) [h0; h1] 0) with h1 in Z; rewrite ?Z;
      destruct (N.ltb_spec key h1); try lia; reflexivity.
  - apply Bool.negb_false_iff in Z. run. loads F1. run. rewrite (add32_small (4 * base)) by (unfold W; lia).
    assert (U := T2 base ltac:(change (N.of_nat (length [o0; o1])) with 2; lia)). rewrite N.add_comm in U.
    eapply wp_load; [rewrite N.add_0_r; exact U|lia|]. step. apply HS.
    + rewrite E. destruct Bn as [[-> X]|[-> X]]; change (nth (N.to_nat 0) [h0; h1] 0) with h0 in Z; change (nth (N.to_nat 1) [h0; h1] 0) with h1 in Z; rewrite ?Z; destruct (N.ltb_spec key h1); try lia; reflexivity.
    + apply (proj1 (Forall_forall _ _) S2). apply nth_In. cbn [length]. lia.
Qed.
Ltac single HO h o0 := match type of HO with O = try_limits 0 ?bb s _ => apply (single_code bb h o0); [exact HO|reflexivity|reflexivity|lia|assumption| | ] end.

Lemma emoji_code l10 l11 l12 l13 l14 l15 : gs = Emoji -> wp demo_env f27_74 (stt p len l10 l11 l12 l13 l14 l15 m) (under (below 54) Q).
Proof.
  intros Hgs. assert (HO := O_from). rewrite Hgs in HO. assert (Ko := ok_start).
  cbn [blitstr_fonts f_blocks FontEmoji.emoji_font FontEmoji.emoji_blocks from b_low b_high b_limits] in HO.
  nestin. unfold f27_100, f27_102. apply (first_code c0 p len m g); [exact Hc0|exact first_at|exact first_len|exact Hp| |].
  { intros Ha. replace ((0 <=? c0) && (c0 <=? 127)) with true in HO by (symmetry; rewrite <- (test_low c0 0 127 ltac:(lia)); apply N.ltb_lt; lia).
    hop. code. pick HO Hgs 0%nat. }
  clear l11 l12 l13 l14 l15. intros Ha l11 l12 l13 l14 l15.
  replace ((0 <=? c0) && (c0 <=? 127)) with false in HO by (symmetry; rewrite <- (test_low c0 0 127 ltac:(lia)); apply N.ltb_ge; lia).
  crun. apply wp_not_taken; [apply N.ltb_ge; lia|]. run.
  tested 0x80 0xFF. branch HO. { pick HO Hgs 1%nat. }
  tested 0x2000 0x206F. branch HO. { pick HO Hgs 2%nat. }
  tested 0x2100 0x214F. branch HO. { pick HO Hgs 3%nat. }
  tested 0x2190 0x21FF. branch HO. { pick HO Hgs 4%nat. }
  masked 35 8 0x2300 0x23FF. branch HO. { pick HO Hgs 5%nat. }
  tested 0x2460 0x24FF. branch HO. { pick HO Hgs 6%nat. }
  tested 0x25A0 0x25FF. branch HO. { pick HO Hgs 7%nat. }
  masked 38 8 0x2600 0x26FF. branch HO. { call HO Hgs 8%nat. call HO Hgs 8%nat. final HO Hgs 8%nat. }
  tested 0x2700 0x27BF. branch HO. { pick HO Hgs 9%nat. }
  masked 82 7 0x2900 0x297F. branch HO. { pick HO Hgs 10%nat. }
  masked 43 8 0x2B00 0x2BFF. branch HO. { pick HO Hgs 11%nat. }
  masked 192 6 0x3000 0x303F. branch HO. { pick HO Hgs 12%nat. }
  masked 50 8 0x3200 0x32FF. branch HO. { pick HO Hgs 13%nat. }
  tested 0xE000 0xF8FF. branch HO. { step. step. single HO 3517333811 91196.
    - intros m2 K E. hop. apply Ke; assumption.
    - intros m2 K E F. run. loads F. run. go. apply place18; assumption || reflexivity. }
  tested 0x1F000 0x1F02F. branch HO. { pick HO Hgs 15%nat. }
  tested 0x1F0A0 0x1F0FF. branch HO. { step. step. single HO 2010979671 24.
    - intros m2 K E. hop. apply Ke; assumption.
    - intros m2 K E F. run. loads F. run. go. apply place18; assumption || reflexivity. }
  masked 497 8 0x1F100 0x1F1FF. branch HO. { pick HO Hgs 17%nat. }
  masked 498 8 0x1F200 0x1F2FF. branch HO. { pick HO Hgs 18%nat. }
  tested 0x1F300 0x1F5FF. branch HO. { do 7 call HO Hgs 19%nat. final HO Hgs 19%nat. }
  tested 0x1F600 0x1F64F. branch HO. { do 3 call HO Hgs 20%nat. final HO Hgs 20%nat. }
  masked 1005 7 0x1F680 0x1F6FF. branch HO. { do 3 call HO Hgs 21%nat. final HO Hgs 21%nat. }
  masked 1007 7 0x1F780 0x1F7FF. branch HO. { table HO 0%nat 1%nat. eapply tail_code; [eassumption..|]. go. crun. go. apply size19; assumption || reflexivity. }
  masked 505 8 0x1F900 0x1F9FF. branch HO. { do 5 call HO Hgs 23%nat. final HO Hgs 23%nat. }
  ntested 0x1FA70 0x1FAFF. nbranch HO. { apply err3; assumption. }
  table HO 2%nat 3%nat. eapply tail_code; [eassumption..|]. go. crun. go. apply size19; assumption || reflexivity.
Qed.

(** ** The bold, regular and small fonts *)
Ltac nmasked v k lo hi := match goal with
  | |- wp _ (IBrIf _ :: _) (St _ _ _ (b2n ?x :: _)) _ => replace x with (negb ((lo <=? c0) && (c0 <=? hi)))
      by (f_equal; symmetry; apply (mask_test' c0 k v); [pose proof Hc0; lia|lia])
  end.
Ltac latin HO Hgs Fin := match type of HO with O = try_limits 0 ?bb s _ =>
  eapply (find_code _ 0%nat bb); [member Hgs|rewrite Hgs; reflexivity|reflexivity|lia|assumption|];
  let m2 := fresh "m" in let a := fresh "a" in let K := fresh "K" in let A := fresh "A" in let F := fresh "F" in
  let F0 := fresh "F" in let F1 := fresh "F" in let F2 := fresh "F" in let o := fresh "o" in let y := fresh "y" in
  intros m2 a K A F; apply (try_step bb _ _ _ HO) in A; clear HO; rename A into HO; run;
  destruct a as [(o, y)|];
  [destruct F as (F0 & F1 & F2); (eapply wp_load; [exact F0|lia|]); run; apply wp_taken; [reflexivity|]; hop; crun; rewrite (add32_small l6) by (unfold W; lia);
   (eapply wp_load; [etransitivity; [|exact F2]; f_equal; lia|lia|]); run; (eapply wp_load; [etransitivity; [|exact F1]; f_equal; lia|lia|]); run; go;
   apply Fin; [exact HO|exact K]
  |(eapply wp_load; [exact F|lia|]); run; apply wp_not_taken; [reflexivity|]];
  match type of HO with O = try_limits 0 ?bb s _ =>
  eapply (find_code _ 0%nat bb); [member Hgs|rewrite Hgs; reflexivity|reflexivity|lia|assumption|];
  let m2 := fresh "m" in let a := fresh "a" in let K := fresh "K" in let A := fresh "A" in let F := fresh "F" in
  let F0 := fresh "F" in let F1 := fresh "F" in let F2 := fresh "F" in let o := fresh "o" in let y := fresh "y" in
  intros m2 a K A F; apply (try_step bb _ _ _ HO) in A; clear HO; rename A into HO; run;
  destruct a as [(o, y)|];
  [destruct F as (F0 & F1 & F2); (eapply wp_load; [exact F0|lia|]); run; apply wp_not_taken; [reflexivity|]; run; rewrite (add32_small l6) by (unfold W; lia);
   (eapply wp_load; [etransitivity; [|exact F2]; f_equal; lia|lia|]); run; (eapply wp_load; [etransitivity; [|exact F1]; f_equal; lia|lia|]); run; go;
   apply Fin; [exact HO|exact K]
  |(eapply wp_load; [exact F|lia|]); run; apply wp_taken; [reflexivity|]; hop; apply err3; [exact HO|exact K]] end end.
Ltac pairs HO h0 h1 o0 o1 kh ko := match type of HO with O = try_limits 0 ?bb s _ =>
  eapply (pair_inline bb h0 h1 o0 o1 kh ko); [exact HO|reflexivity|reflexivity|reflexivity|reflexivity|reflexivity|reflexivity|reflexivity|lia|reflexivity|assumption|assumption|assumption| | ] end.

Lemma bold_code l10 l11 l12 l13 l14 l15 : gs = Bold -> wp demo_env f27_184 (stt p len l10 l11 l12 l13 l14 l15 m) (under (below 53) Q).
Proof.
  intros Hgs. assert (HO := O_from). rewrite Hgs in HO. assert (Ko := ok_start).
  cbn [blitstr_fonts f_blocks FontBold.bold_font FontBold.bold_blocks from b_low b_high b_limits] in HO.
  assert (Fin : forall m' off bytes l4 l10 l11 l12 l13 l15, O = Ret (Some (off, bytes)) -> OK m' ->
    wp demo_env f27_205 (stt bytes l4 l10 l11 l12 l13 off l15 m') (under (below 53) Q)).
  { intros m' off bytes l4' l10' l11' l12' l13' l15' E K. crun. go. apply size26; assumption || reflexivity. }
  nestin. unfold f27_192, f27_194. apply (first_code c0 p len m g); [exact Hc0|exact first_at|exact first_len|exact Hp| |].
  { intros Ha. replace ((0 <=? c0) && (c0 <=? 127)) with true in HO by (symmetry; rewrite <- (test_low c0 0 127 ltac:(lia)); apply N.ltb_lt; lia).
    hop. code. latin HO Hgs Fin. }
  clear l11 l12 l13 l14 l15. intros Ha l11 l12 l13 l14 l15.
  replace ((0 <=? c0) && (c0 <=? 127)) with false in HO by (symmetry; rewrite <- (test_low c0 0 127 ltac:(lia)); apply N.ltb_ge; lia).
  crun. apply wp_not_taken; [apply N.ltb_ge; lia|]. run.
  tested 0x80 0xFF. branch HO. { table HO 72%nat 64%nat. eapply tail_code; [eassumption..|]. go. apply Fin; assumption. }
  assert (Hb := above _ _ _ Z Ha). change (0xFF + 1) with 0x100 in Hb.
  tested 0x100 0x17F. branch HO. { step. step. apply hash_code; [lia|assumption|]. intros m2 K F0 F1.
    pairs HO 0x1a01594c 0x8c60da30 1421 1433 74%nat 65%nat.
    - intros l4 l13' E. hop. apply Ke; assumption.
    - intros v l4 l13' E Hw. go. apply Fin; assumption. }
  tested 0x2000 0x206F. branch HO. { table HO 76%nat 66%nat. eapply tail_code; [eassumption..|]. go. apply Fin; assumption. }
  tested 0x20A0 0x20CF. branch HO. { step. step. single HO 449459899 1479.
    - intros m2 K E. hop. crun. go. apply Ke; assumption.
    - intros m2 K E F. run. loads F. run. go. apply place20; assumption || reflexivity. }
  nmasked 4095 4 0xFFF0 0xFFFF. nbranch HO. { apply err3; assumption. }
  step. step. apply hash_code; [lia|assumption|]. intros m2 K F0 F1.
  match type of HO with O = try_limits 0 ?bb s _ => assert (E := find_limit1 bb _ HO (find_one bb 1487264309 1488 eq_refl eq_refl)) end.
  run. loads F0. run. apply wp_if; intros Y; rewrite Y in E.
  - hop. crun. loads F1. run. go. apply place20; assumption || reflexivity.
  - run. go. crun. go. apply Ke; assumption.
Qed.

Lemma regular_code l10 l11 l12 l13 l14 l15 : gs = Regular -> wp demo_env f27_206 (stt p len l10 l11 l12 l13 l14 l15 m) (under (below 52) Q).
Proof.
  intros Hgs. assert (HO := O_from). rewrite Hgs in HO. assert (Ko := ok_start).
  cbn [blitstr_fonts f_blocks FontRegular.regular_font FontRegular.regular_blocks from b_low b_high b_limits] in HO.
  assert (Fin : forall m' off bytes l4 l10 l11 l12 l13 l15, O = Ret (Some (off, bytes)) -> OK m' ->
    wp demo_env f27_225 (stt bytes l4 l10 l11 l12 l13 off l15 m') (under (below 52) Q)).
  { intros m' off bytes l4' l10' l11' l12' l13' l15' E K. crun. go. apply size25; assumption || reflexivity. }
  nestin. unfold f27_213, f27_215. apply (first_code c0 p len m g); [exact Hc0|exact first_at|exact first_len|exact Hp| |].
  { intros Ha. replace ((0 <=? c0) && (c0 <=? 127)) with true in HO by (symmetry; rewrite <- (test_low c0 0 127 ltac:(lia)); apply N.ltb_lt; lia).
    hop. code. latin HO Hgs Fin. }
  clear l11 l12 l13 l14 l15. intros Ha l11 l12 l13 l14 l15.
  replace ((0 <=? c0) && (c0 <=? 127)) with false in HO by (symmetry; rewrite <- (test_low c0 0 127 ltac:(lia)); apply N.ltb_ge; lia).
  crun. apply wp_not_taken; [apply N.ltb_ge; lia|]. run.
  tested 0x80 0xFF. branch HO. { table HO 72%nat 73%nat. step. step. eapply tail_code; [eassumption..|]. go. apply size25; assumption || reflexivity. }
  assert (Hb := above _ _ _ Z Ha). change (0xFF + 1) with 0x100 in Hb.
  tested 0x100 0x17F. branch HO. { step. step. apply hash_code; [lia|assumption|]. intros m2 K F0 F1. step. step. 
    pairs HO 0x1a01594c 0x8c60da30 1327 1340 74%nat 75%nat.
    - intros l4 l13' E. hop. apply Ke; assumption.
    - intros v l4 l13' E Hw. go. apply size25; assumption || reflexivity. }
  tested 0x2000 0x206F. branch HO. { table HO 76%nat 77%nat. step. step. eapply tail_code; [eassumption..|]. go. apply size25; assumption || reflexivity. }
  tested 0x20A0 0x20CF. branch HO. { step. step. single HO 449459899 1390.
    - intros m2 K E. hop. apply Ke; assumption.
    - intros m2 K E F. run. loads F. run. go. apply place24; assumption || reflexivity. }
  nmasked 4095 4 0xFFF0 0xFFFF. nbranch HO. { apply err3; assumption. }
  step. step. single HO 1487264309 1399.
  - intros m2 K E. hop. apply Ke; assumption.
  - intros m2 K E F. run. loads F. run. go. apply place24; assumption || reflexivity.
Qed.

Lemma small_code l10 l11 l12 l13 l14 l15 : gs = Small -> wp demo_env f27_226 (stt p len l10 l11 l12 l13 l14 l15 m) (under (below 51) Q).
Proof.
  intros Hgs. assert (HO := O_from). rewrite Hgs in HO. assert (Ko := ok_start).
  cbn [blitstr_fonts f_blocks FontSmall.small_font FontSmall.small_blocks from b_low b_high b_limits] in HO.
  assert (Fin : forall m' off bytes l4 l10 l11 l12 l13 l15, O = Ret (Some (off, bytes)) -> OK m' ->
    wp demo_env f27_245 (stt bytes l4 l10 l11 l12 l13 off l15 m') (under (below 51) Q)).
  { intros m' off bytes l4' l10' l11' l12' l13' l15' E K. crun. go. apply size23; assumption || reflexivity. }
  nestin. unfold f27_233, f27_235. apply (first_code c0 p len m g); [exact Hc0|exact first_at|exact first_len|exact Hp| |].
  { intros Ha. replace ((0 <=? c0) && (c0 <=? 127)) with true in HO by (symmetry; rewrite <- (test_low c0 0 127 ltac:(lia)); apply N.ltb_lt; lia).
    hop. code. latin HO Hgs Fin. }
  clear l11 l12 l13 l14 l15. intros Ha l11 l12 l13 l14 l15.
  replace ((0 <=? c0) && (c0 <=? 127)) with false in HO by (symmetry; rewrite <- (test_low c0 0 127 ltac:(lia)); apply N.ltb_ge; lia).
  crun. apply wp_not_taken; [apply N.ltb_ge; lia|]. run.
  tested 0x80 0xFF. branch HO. { table HO 72%nat 68%nat. eapply tail_code; [eassumption..|]. go. apply Fin; assumption || reflexivity. }
  assert (Hb := above _ _ _ Z Ha). change (0xFF + 1) with 0x100 in Hb.
  tested 0x100 0x17F. branch HO. { step. step. apply hash_code; [lia|assumption|]. intros m2 K F0 F1. 
    pairs HO 0x1a01594c 0x8c60da30 1004 1012 74%nat 69%nat.
    - intros l4 l13' E. hop. apply Ke; assumption.
    - intros v l4 l13' E Hw. go. apply Fin; assumption || reflexivity. }
  tested 0x2000 0x206F. branch HO. { table HO 76%nat 70%nat. eapply tail_code; [eassumption..|]. go. apply Fin; assumption || reflexivity. }
  tested 0x20A0 0x20CF. branch HO. { step. step. single HO 449459899 1051.
    - intros m2 K E. hop. apply Ke; assumption.
    - intros m2 K E F. run. loads F. run. go. apply place22; assumption || reflexivity. }
  nmasked 4095 4 0xFFF0 0xFFFF. nbranch HO. { apply err3; assumption. }
  step. step. single HO 1487264309 1058.
  - intros m2 K E. hop. apply Ke; assumption.
  - intros m2 K E F. run. loads F. run. go. apply place22; assumption || reflexivity.
Qed.
End Dispatch.
