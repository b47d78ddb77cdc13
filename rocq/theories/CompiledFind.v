(** * The compiled tables: hash lookups and words of glyphs *)
From Coq Require Import ZArith.
From Verif Require Import PrimFacts Str M3Hash HashProofs FontDefs Geom FbFacts Webasm WebasmLogic DemoCode SpecCompiled CompiledBase CompiledHash.

(** ** Binary search *)
Lemma bs_step fuel s key base size v : 1 < size -> nth_error s (N.to_nat (base + N.div2 size)) = Some v ->
  bs_loop (S fuel) s key base size = bs_loop fuel s key (if key <? v then base else base + N.div2 size) (size - N.div2 size).
Proof. intros H E. cbn [bs_loop]. destruct (N.leb_spec size 1) as [X|X]; [lia|]. rewrite E. reflexivity. Qed.
Lemma bs_one fuel s key base : bs_loop fuel s key base 1 = base.
Proof. destruct fuel; reflexivity. Qed.
Lemma div2_half size : 1 < size -> 1 <= N.div2 size /\ N.div2 size < size /\ 2 * N.div2 size <= size.
Proof. intros H. rewrite N.div2_div. assert (A := N.div_mod size 2 ltac:(discriminate)). assert (B := N.mod_lt size 2 ltac:(discriminate)). lia. Qed.
Lemma bs_bounds s key : forall fuel base size, 1 <= size -> base <= bs_loop fuel s key base size /\ bs_loop fuel s key base size < base + size.
Proof.
  induction fuel as [|fuel IH]; intros base size H; [cbn; lia|]. cbn [bs_loop]. destruct (N.leb_spec size 1) as [X|X]; [lia|].
  destruct (div2_half size X) as (A & B & C).
  match goal with |- context[bs_loop fuel s key ?b ?z] => set (base' := b); specialize (IH b z ltac:(lia)); fold base' in IH end.
  assert (base' = base \/ base' = base + N.div2 size) as [-> | ->] by (unfold base'; destruct (nth_error s _); [destruct (key <? n)|]; auto); lia.
Qed.

Section Lookup.
Context (n hash off : N) (s : list N) (key : N) (m : memory).
Hypothesis (Hs : words_at m hash s) (Hn : N.of_nat (length s) = n) (Hh : hash + 4 * n <= 2686976).

Lemma search_lookup g l0 l4 l5 (Q : outcome -> Prop) : forall fuel base size l3 l7,
  1 < size -> size <= N.of_nat fuel -> base + size <= n ->
  (forall l2 l3 l7, wp demo_env (lookup_2 n hash off) (St [l0; bs_loop fuel s key base size; l2; l3; l4; l5; key; l7] g m []) Q) ->
  wp demo_env (ILoop (lookup_1 hash) :: lookup_2 n hash off) (St [l0; base; size; l3; l4; l5; key; l7] g m []) Q.
Proof.
  induction fuel as [|fuel IH]; intros base size l3 l7 H1 H2 H3 HQ; [lia|].
  destruct (div2_half size H1) as (A & B & C).
  assert (E : exists v, nth_error s (N.to_nat (base + N.div2 size)) = Some v).
  { destruct (nth_error s _) as [v|] eqn:E; [eauto|]. apply nth_error_None in E. lia. }
  destruct E as (v & E). assert (V : load32 m (hash + 4 * (base + N.div2 size)) = v).
  { rewrite Hs by lia. apply nth_error_nth. exact E. }
  apply wp_loop_step. crun. change (ishr size 1) with (N.shiftr size 1). rewrite <- N.div2_spec.
  rewrite (add32_small (N.div2 size) base) by (unfold W; lia). rewrite (N.add_comm (N.div2 size) base).
  rewrite (ishl2_small) by (unfold W; lia). rewrite (add32_small (4 * _) hash) by (unfold W; lia).
  eapply wp_load; [rewrite N.add_0_r, (N.add_comm _ hash); exact V|lia|]. run.
  rewrite (sub32_small size) by (unfold W; lia).
  assert (X : (if b2n (key <? v) =? 0 then base + N.div2 size else base) = (if key <? v then base else base + N.div2 size)) by (destruct (key <? v); reflexivity).
  rewrite X. rewrite (bs_step fuel s key base size v H1 E) in HQ.
  set (base' := if key <? v then base else base + N.div2 size) in *.
  assert (Y : base' + (size - N.div2 size) <= n) by (unfold base'; destruct (key <? v); lia).
  apply wp_if; intros Z.
  - next. apply N.ltb_lt in Z. apply IH; try assumption; lia.
  - apply wp_nil. next. apply N.ltb_ge in Z. replace (size - N.div2 size) with 1 in HQ |- * by lia. rewrite bs_one in HQ. apply HQ.
Qed.
End Lookup.

Lemma gc_lt s limit : str_len s < W -> fst (grapheme_cluster s 0 limit) < W /\ snd (grapheme_cluster s 0 limit) <= str_len s.
Proof.
  intros H. unfold grapheme_cluster. assert (B := gc_bytes limit s 0 0 0 (str_len s)). unfold char_indices.
  destruct (gc_loop _ _ _ _ _) as (h, b) eqn:E. cbn [fst snd] in *. split; [|lia].
  apply avalanche_lt. rewrite w32_small by (unfold W in *; lia).
  assert (Hh : h < W).
  { replace h with (fst (gc_loop (char_indices_from 0 s) 0 0 limit (str_len s))) by (rewrite E; reflexivity). clear E B H b h.
    assert (G : forall t i h n b, h < W -> fst (gc_loop (char_indices_from i t) h n limit b) < W).
    { induction t as [|c t IH]; intros i h n b H; cbn [char_indices_from gc_loop]; [exact H|]. destruct (limit <=? n); [exact H|].
      apply IH. unfold mix. apply w32_lt. }
    apply G. reflexivity. }
  apply (lxor_lt _ _ 32); [exact Hh|]. unfold W in *. lia.
Qed.


Section Find.
Context (b : block) (m : memory) (sp ret p limit hash off : N) (gs : list N) (t : str).
Hypothesis (Hsp : 16 <= sp) (Hsp' : sp <= 1048576) (Hret : sp <= ret) (Hret' : ret + 12 <= 1048576).
Hypothesis (Ht : chars t) (Hat : str_at m p t) (Hp : p + str_len t <= 2686976) (Hl : limit < W).
Hypothesis (Hhash : words_at m hash (b_hash b)) (Hoff : words_at m off (b_offset b)).
Hypothesis (Hlen : length (b_offset b) = length (b_hash b)) (Hsm : Forall (fun v => v < W) (b_offset b)).
Hypothesis (Hb1 : 1048576 <= hash) (Hb2 : 1048576 <= off).
Hypothesis (Hb3 : hash + 4 * N.of_nat (length (b_hash b)) <= 2686976) (Hb4 : off + 4 * N.of_nat (length (b_hash b)) <= 2686976).

Definition answer (r : option (list N * list N * memory)) : Prop :=
  exists m' a, r = Some ([], sp :: gs, m') /\ find_in_block 0 b t limit = Ret a /\ found_at m' ret a /\ answered sp 16 ret 12 m m' /\ (bytes_ok m -> bytes_ok m').

Let key := fst (grapheme_cluster t 0 limit).
Let bytes := snd (grapheme_cluster t 0 limit).
Let m1 := store32 (store32 m (sp - 4) bytes) (sp - 8) key.

Lemma find_eq : find_in_block 0 b t limit =
  match binary_search (b_hash b) key with Some i => o <- aget (b_offset b) i ;; Ret (Some (o, bytes)) | None => Ret None end.
Proof. unfold find_in_block, murmur3, key, bytes. destruct (grapheme_cluster t 0 limit). reflexivity. Qed.

Lemma key_lt : key < W. Proof. apply gc_lt. unfold W; lia. Qed.
Lemma bytes_lt : bytes < W. Proof. assert (A := gc_lt t limit ltac:(unfold W; lia)). unfold bytes, W in *. lia. Qed.
Lemma key_at : load32 m1 (sp - 16 + 8) = key.
Proof. replace (sp - 16 + 8) with (sp - 8) by lia. apply load32_same. exact key_lt. Qed.
Lemma bytes_at' : load32 m1 (sp - 16 + 12) = bytes.
Proof. replace (sp - 16 + 12) with (sp - 4) by lia. unfold m1. rewrite load32_other by lia. apply load32_same. exact bytes_lt. Qed.
Lemma table1 : words_at m1 hash (b_hash b).
Proof. intros i Hi. unfold m1. rewrite !load32_other by lia. apply Hhash. exact Hi. Qed.
Lemma table2 : words_at m1 off (b_offset b).
Proof. intros i Hi. unfold m1. rewrite !load32_other by lia. apply Hoff. exact Hi. Qed.

Lemma not_found : binary_search (b_hash b) key = None ->
  answer (Some ([], sp :: gs, store32 m1 ret 0)).
Proof.
  intros E. exists (store32 m1 ret 0), None. split; [reflexivity|]. rewrite find_eq, E. split; [reflexivity|]. split.
  - apply load32_same. reflexivity.
  - split; [intros a H1 H2; unfold m1, store32; rewrite !store_other by lia; reflexivity|]. intros Hok. repeat apply store_ok. exact Hok.
Qed.
Lemma was_found i : binary_search (b_hash b) key = Some i -> i < N.of_nat (length (b_hash b)) ->
  answer (Some ([], sp :: gs, store32 (store32 (store32 m1 ret 1) (ret + 8) bytes) (ret + 4) (load32 m1 (off + 4 * i)))).
Proof.
  intros E Hi. eexists. exists (Some (nth (N.to_nat i) (b_offset b) 0, bytes)). split; [reflexivity|]. rewrite find_eq, E.
  rewrite (aget_ok _ i 0) by lia. split; [reflexivity|]. rewrite (table2 i) by lia.
  assert (nth (N.to_nat i) (b_offset b) 0 < W).
  { apply (proj1 (Forall_forall _ _) Hsm). apply nth_In. lia. }
  split; [cbn [found_at]; repeat split|].
  - rewrite !load32_other by lia. apply load32_same. reflexivity.
  - apply load32_same. assumption.
  - rewrite load32_other by lia. apply load32_same. exact bytes_lt.
  - split; [intros a H1 H2; unfold m1, store32; rewrite !store_other by lia; reflexivity|]. intros Hok. repeat apply store_ok. exact Hok.
Qed.

Lemma lookup_compiled f n :
  nth_error demo_funcs f = Some (Func 4 0 4 (lookup_code n hash off)) -> N.of_nat (length (b_hash b)) = n -> 1 < n ->
  fwp demo_env f [ret; p; str_len t; limit] (sp :: gs) m answer.
Proof.
  intros Hf Hn H1. eapply fwp_intro; [exact Hf|reflexivity|]. cbn [fn_body fn_results]. unfold enter. cbn [fn_locals repeat app].
  unfold lookup_code. run. rewrite (sub32_small sp 16) by (unfold W; lia). rewrite (add32_small (sp - 16) 8) by (unfold W; lia).
  eapply wp_call; [reflexivity|reflexivity|]. cbn [rev firstn skipn app].
  eapply fwp_mono; [|apply hash_compiled; try assumption; lia]. intros r ->. fold key bytes.
  replace (sp - 16 + 8 + 4) with (sp - 4) by lia. replace (sp - 16 + 8) with (sp - 8) by lia. fold m1. cbn [app]. run.
  eapply wp_load; [exact bytes_at'|lia|]. run. eapply wp_load; [exact key_at|lia|]. run.
  assert (S : binary_search (b_hash b) key = let base := bs_loop (length (b_hash b)) (b_hash b) key 0 n in
    if nth (N.to_nat base) (b_hash b) 0 =? key then Some base else None).
  { unfold binary_search. destruct (bs_bounds (b_hash b) key (length (b_hash b)) 0 n ltac:(lia)) as (B1 & B2).
    rewrite Hn. cbn zeta. set (base := bs_loop _ _ _ _ _) in *. destruct (b_hash b) as [|x l] eqn:El; [cbn in Hn; lia|]. rewrite <- El in *.
    destruct (nth_error (b_hash b) (N.to_nat base)) as [v|] eqn:E; [rewrite (nth_error_nth _ _ 0 E); reflexivity|].
    apply nth_error_None in E. lia. }
  apply (search_lookup n hash off (b_hash b) key m1 table1 Hn ltac:(lia) (sp - 16 :: gs) ret (sp - 16) bytes _ (length (b_hash b))); try lia.
  destruct (bs_bounds (b_hash b) key (length (b_hash b)) 0 n ltac:(lia)) as (B1 & B2). cbn zeta in S.
  set (base := bs_loop _ _ _ _ _) in *. intros l2 l3 l7.
  unfold lookup_2. apply wp_block. unfold lookup_3. apply wp_block. unfold lookup_4. apply wp_block. crun.
  rewrite ishl2_small by (unfold W; lia). rewrite !(add32_small (4 * base)) by (unfold W; lia).
  assert (T := table1 base ltac:(lia)). rewrite N.add_comm in T.
  eapply wp_load; [rewrite N.add_0_r; exact T|lia|]. run. apply wp_if; intros Z; rewrite Z in S.
  - next. crun. apply wp_not_taken; [apply N.ltb_ge; lia|]. run. eapply wp_store; [apply N.add_0_r|lia|]. run.
    rewrite (add32_small ret 8) by (unfold W; lia). eapply wp_store; [apply N.add_0_r|lia|]. run.
    rewrite ishl2_small by (unfold W; lia). rewrite !(add32_small (4 * base)) by (unfold W; lia).
    eapply wp_load; [rewrite N.add_0_r, !load32_other by lia; rewrite (N.add_comm (4 * base)); reflexivity|lia|]. eapply wp_store; [reflexivity|lia|].
    apply wp_nil. next. crun. rewrite (add32_small (sp - 16) 16) by (unfold W; lia). replace (sp - 16 + 16) with sp by lia.
    apply wp_return. next. exact (was_found base S ltac:(lia)).
  - run. eapply wp_store; [apply N.add_0_r|lia|]. apply wp_br. next. crun. rewrite (add32_small (sp - 16) 16) by (unfold W; lia).
    replace (sp - 16 + 16) with sp by lia. apply wp_return. next. exact (not_found S).
Qed.

Lemma pair_compiled f h0 h1 :
  nth_error demo_funcs f = Some (Func 4 0 1 (pair_code (h1 - 1) hash off)) -> b_hash b = [h0; h1] -> 0 < h1 ->
  fwp demo_env f [ret; p; str_len t; limit] (sp :: gs) m answer.
Proof.
  intros Hf Hh H1. eapply fwp_intro; [exact Hf|reflexivity|]. cbn [fn_body fn_results]. unfold enter. cbn [fn_locals repeat app].
  unfold pair_code. run. rewrite (sub32_small sp 16) by (unfold W; lia). rewrite (add32_small (sp - 16) 8) by (unfold W; lia).
  eapply wp_call; [reflexivity|reflexivity|]. cbn [rev firstn skipn app].
  eapply fwp_mono; [|apply hash_compiled; try assumption; lia]. intros r ->. fold key bytes.
  replace (sp - 16 + 8 + 4) with (sp - 4) by lia. replace (sp - 16 + 8) with (sp - 8) by lia. fold m1. cbn [app].
  apply wp_block. unfold pair_1. apply wp_block. crun. eapply wp_load; [exact key_at|lia|]. run.
  set (base := b2n (h1 - 1 <? key)).
  assert (Bn : base = 0 /\ key < h1 \/ base = 1 /\ h1 <= key) by (unfold base; destruct (N.ltb_spec (h1 - 1) key); cbn [b2n]; lia).
  assert (Ln : N.of_nat (length (b_hash b)) = 2) by (rewrite Hh; reflexivity).
  rewrite ishl2_small by (unfold W; lia). rewrite !(add32_small (4 * base)) by (unfold W; lia).
  assert (T := table1 base ltac:(lia)). rewrite N.add_comm in T.
  assert (S : binary_search (b_hash b) key = if nth (N.to_nat base) (b_hash b) 0 =? key then Some base else None).
  { unfold binary_search. rewrite Hh. change (N.of_nat (length [h0; h1])) with 2. change (length [h0; h1]) with 2%nat.
    rewrite (bs_step 1 _ key 0 2 h1) by reflexivity. change (2 - N.div2 2) with 1. rewrite bs_one. cbn zeta.
    destruct Bn as [[-> K]|[-> K]]; destruct (N.ltb_spec key h1) as [X|X]; try lia; reflexivity. }
  eapply wp_load; [rewrite N.add_0_r; exact T|lia|]. run. apply wp_if; intros Z; rewrite Z in S.
  - next. crun. eapply wp_load; [exact bytes_at'|lia|]. run. eapply wp_store; [apply N.add_0_r|lia|]. run.
    rewrite (add32_small ret 8) by (unfold W; lia). eapply wp_store; [apply N.add_0_r|lia|]. run.
    rewrite !(add32_small (4 * base)) by (unfold W; lia).
    eapply wp_load; [rewrite N.add_0_r, !load32_other by lia; rewrite (N.add_comm (4 * base)); reflexivity|lia|]. eapply wp_store; [reflexivity|lia|].
    apply wp_nil. next. crun. rewrite (add32_small (sp - 16) 16) by (unfold W; lia). replace (sp - 16 + 16) with sp by lia.
    apply wp_nil. next. refine (was_found base S _). lia.
  - run. eapply wp_store; [apply N.add_0_r|lia|]. apply wp_br. next. crun. rewrite (add32_small (sp - 16) 16) by (unfold W; lia).
    replace (sp - 16 + 16) with sp by lia. apply wp_nil. next. exact (not_found S).
Qed.
End Find.
