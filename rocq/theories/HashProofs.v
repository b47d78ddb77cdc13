(** * Murmur3 steps are bijections on u32 *)
From Coq Require Import ZArith.
From Verif Require Export PrimFacts Str M3Hash.

Lemma u32_bits x i : x < 2 ^ 32 -> 32 <= i -> N.testbit x i = false.
Proof.
  intros Hx Hi. destruct (N.eq_dec x 0) as [->|H0]; [apply N.bits_0|].
  apply N.bits_above_log2. assert (N.log2 x < 32) by (apply N.log2_lt_pow2; lia). lia.
Qed.
Lemma u32_of_bits x : (forall i, 32 <= i -> N.testbit x i = false) -> x < 2 ^ 32.
Proof.
  intros H. replace x with (x mod 2 ^ 32); [apply N.mod_lt; discriminate|].
  apply N.bits_inj; intros i. destruct (N.lt_ge_cases i 32).
  - apply N.mod_pow2_bits_low; assumption.
  - rewrite N.mod_pow2_bits_high, H by assumption. reflexivity.
Qed.
Lemma lxor_u32 a b : a < 2 ^ 32 -> b < 2 ^ 32 -> N.lxor a b < 2 ^ 32.
Proof.
  intros; apply u32_of_bits; intros. rewrite N.lxor_spec, !u32_bits by assumption. reflexivity.
Qed.
Lemma shiftr_u32 a k : a < 2 ^ 32 -> N.shiftr a k < 2 ^ 32.
Proof.
  intros; apply u32_of_bits; intros. rewrite N.shiftr_spec'. apply u32_bits; lia.
Qed.

Lemma rotl_bits x r i : x < 2 ^ 32 -> 0 < r < 32 ->
  N.testbit (rotl32 x r) i = (i <? 32) && N.testbit x (if i <? r then i + 32 - r else i - r).
Proof.
  intros Hx Hr. unfold rotl32. rewrite N.lor_spec, w32_testbit, N.shiftr_spec'.
  destruct (N.ltb_spec i 32) as [Hi|Hi]; simpl.
  - destruct (N.ltb_spec i r) as [Hir|Hir].
    + rewrite N.shiftl_spec_low by assumption. simpl. f_equal. lia.
    + rewrite N.shiftl_spec_high' by assumption.
      rewrite (u32_bits x (i + (32 - r))) by (assumption || lia). apply orb_false_r.
  - apply u32_bits; [assumption|lia].
Qed.
Lemma rotl_lt x r : x < 2 ^ 32 -> 0 < r < 32 -> rotl32 x r < 2 ^ 32.
Proof.
  intros; apply u32_of_bits; intros i Hi. rewrite rotl_bits by assumption.
  destruct (N.ltb_spec i 32); [lia|reflexivity].
Qed.
Lemma rotl_inv x r : x < 2 ^ 32 -> 0 < r < 32 -> rotl32 (rotl32 x r) (32 - r) = x.
Proof.
  intros Hx Hr. apply N.bits_inj; intros i.
  rewrite rotl_bits by (try apply rotl_lt; assumption || lia).
  rewrite rotl_bits by assumption.
  destruct (N.ltb_spec i 32) as [Hi|Hi]; simpl; [|symmetry; apply u32_bits; assumption].
  destruct (N.ltb_spec i (32 - r)) as [H1|H1].
  - destruct (N.ltb_spec (i + 32 - (32 - r)) 32); [|lia]. simpl.
    destruct (N.ltb_spec (i + 32 - (32 - r)) r); [lia|]. f_equal; lia.
  - destruct (N.ltb_spec (i - (32 - r)) 32); [|lia]. simpl.
    destruct (N.ltb_spec (i - (32 - r)) r); [|lia]. f_equal; lia.
Qed.

Lemma wmul_inv x a b : x < 2 ^ 32 -> (a * b) mod 2 ^ 32 = 1 -> wmul32 (wmul32 x a) b = x.
Proof.
  intros Hx Hab. unfold wmul32. rewrite !w32_mod.
  rewrite N.mul_mod_idemp_l by discriminate.
  rewrite <- N.mul_assoc, N.mul_mod, Hab, N.mul_1_r by discriminate.
  rewrite N.mod_mod, N.mod_small by (discriminate || assumption). reflexivity.
Qed.
Lemma wmul_lt x a : wmul32 x a < 2 ^ 32.
Proof. apply w32_lt. Qed.
Lemma wadd_inv x a b : x < 2 ^ 32 -> (a + b) mod 2 ^ 32 = 0 -> wadd32 (wadd32 x a) b = x.
Proof.
  intros Hx Hab. unfold wadd32. rewrite !w32_mod.
  rewrite N.add_mod_idemp_l by discriminate.
  rewrite <- N.add_assoc, N.add_mod, Hab, N.add_0_r by discriminate.
  rewrite N.mod_mod, N.mod_small by (discriminate || assumption). reflexivity.
Qed.

Lemma xorshift_inv16 x : x < 2 ^ 32 ->
  let y := N.lxor x (N.shiftr x 16) in N.lxor y (N.shiftr y 16) = x.
Proof.
  intros Hx y. apply N.bits_inj; intros i. unfold y.
  rewrite N.lxor_spec, N.shiftr_spec', !N.lxor_spec, !N.shiftr_spec'.
  rewrite (u32_bits x (i + 16 + 16)) by (assumption || lia).
  destruct (N.testbit x i), (N.testbit x (i + 16)); reflexivity.
Qed.
Lemma xorshift_inv13 x : x < 2 ^ 32 ->
  let y := N.lxor x (N.shiftr x 13) in
  N.lxor y (N.lxor (N.shiftr y 13) (N.shiftr y 26)) = x.
Proof.
  intros Hx y. apply N.bits_inj; intros i. unfold y.
  rewrite !N.lxor_spec, !N.shiftr_spec', !N.lxor_spec, !N.shiftr_spec'.
  rewrite (u32_bits x (i + 26 + 13)) by (assumption || lia).
  replace (i + 13 + 13) with (i + 26) by lia.
  destruct (N.testbit x i), (N.testbit x (i + 13)), (N.testbit x (i + 26)); reflexivity.
Qed.

(** ** Inverses *)
Definition unscramble (k : N) : N :=
  wmul32 (rotl32 (wmul32 k 0x56ed309b) 17) 0xdee13bb1.

(** what the state xor the scrambled key was, given the state after mix *)
Definition unmix (h : N) : N := rotl32 (wmul32 (wadd32 h 0x19ab949c) 0xcccccccd) 19.

Definition unavalanche (h : N) : N :=
  let h := N.lxor h (N.shiftr h 16) in
  let h := wmul32 h 0x7ed1b41d in
  let h := N.lxor h (N.lxor (N.shiftr h 13) (N.shiftr h 26)) in
  let h := wmul32 h 0xa5cb9243 in
  N.lxor h (N.shiftr h 16).

Lemma scramble_lt k : scramble k < 2 ^ 32.
Proof. apply wmul_lt. Qed.
Lemma mix_lt h k : mix h k < 2 ^ 32.
Proof. apply w32_lt. Qed.
Lemma avalanche_lt h : h < 2 ^ 32 -> avalanche h < 2 ^ 32.
Proof.
  intros. unfold avalanche. cbv zeta. apply lxor_u32; [apply wmul_lt|apply shiftr_u32, wmul_lt].
Qed.

Lemma unscramble_ok k : k < 2 ^ 32 -> unscramble (scramble k) = k.
Proof.
  intros Hk. unfold unscramble, scramble. cbv zeta.
  rewrite (wmul_inv _ 0x1b873593 0x56ed309b); [|apply rotl_lt; [apply wmul_lt|lia]|reflexivity].
  change 17 with (32 - 15). rewrite rotl_inv by (try apply wmul_lt; lia).
  apply wmul_inv; [assumption|reflexivity].
Qed.

Lemma unmix_ok h k : h < 2 ^ 32 -> unmix (mix h k) = N.lxor h (scramble k).
Proof.
  intros Hh. unfold unmix, mix. cbv zeta.
  pose proof (lxor_u32 h (scramble k) Hh (scramble_lt k)).
  rewrite wadd_inv; [|apply wmul_lt|reflexivity].
  rewrite wmul_inv; [|apply rotl_lt; [assumption|lia]|reflexivity].
  change 19 with (32 - 13). apply rotl_inv; [assumption|lia].
Qed.

Lemma unavalanche_ok h : h < 2 ^ 32 -> unavalanche (avalanche h) = h.
Proof.
  intros Hh. unfold unavalanche, avalanche. cbv zeta.
  rewrite (xorshift_inv16 (wmul32 _ 0xc2b2ae35)) by apply wmul_lt.
  rewrite (wmul_inv _ 0xc2b2ae35); [|apply lxor_u32; [|apply shiftr_u32]; apply wmul_lt|reflexivity].
  rewrite (xorshift_inv13 (wmul32 _ 0x85ebca6b)) by apply wmul_lt.
  rewrite (wmul_inv _ 0x85ebca6b); [|apply lxor_u32; [|apply shiftr_u32]; assumption|reflexivity].
  apply xorshift_inv16; assumption.
Qed.

(** ** Injectivity *)
Lemma lxor_cancel_l a b c : N.lxor a b = N.lxor a c -> b = c.
Proof.
  intros H. apply (f_equal (N.lxor a)) in H. rewrite <- !N.lxor_assoc, N.lxor_nilpotent, !N.lxor_0_l in H.
  exact H.
Qed.
Lemma lxor_cancel_r a b c : N.lxor b a = N.lxor c a -> b = c.
Proof. rewrite !(N.lxor_comm _ a). apply lxor_cancel_l. Qed.

Lemma mix_inj_state h1 h2 k : h1 < 2 ^ 32 -> h2 < 2 ^ 32 -> mix h1 k = mix h2 k -> h1 = h2.
Proof.
  intros H1 H2 E. apply (f_equal unmix) in E. rewrite !unmix_ok in E by assumption.
  apply lxor_cancel_r in E. exact E.
Qed.
Lemma mix_inj_key h k1 k2 : h < 2 ^ 32 -> k1 < 2 ^ 32 -> k2 < 2 ^ 32 -> mix h k1 = mix h k2 -> k1 = k2.
Proof.
  intros H H1 H2 E. apply (f_equal unmix) in E. rewrite !unmix_ok in E by assumption.
  apply lxor_cancel_l in E. apply (f_equal unscramble) in E. rewrite !unscramble_ok in E by assumption.
  exact E.
Qed.
Lemma avalanche_inj h1 h2 : h1 < 2 ^ 32 -> h2 < 2 ^ 32 -> avalanche h1 = avalanche h2 -> h1 = h2.
Proof.
  intros H1 H2 E. apply (f_equal unavalanche) in E. rewrite !unavalanche_ok in E by assumption. exact E.
Qed.

Lemma fold_mix_lt l h : h < 2 ^ 32 -> fold_left mix l h < 2 ^ 32.
Proof. revert h; induction l as [|k l IH]; intros h H; [assumption|]. simpl. apply IH, mix_lt. Qed.
Lemma fold_mix_inj l h1 h2 : h1 < 2 ^ 32 -> h2 < 2 ^ 32 ->
  fold_left mix l h1 = fold_left mix l h2 -> h1 = h2.
Proof.
  revert h1 h2; induction l as [|k l IH]; intros h1 h2 H1 H2 E; [exact E|].
  simpl in E. apply IH in E; [|apply mix_lt|apply mix_lt]. eapply mix_inj_state; eassumption.
Qed.

(** ** C35 *)
Lemma fb_hash_word a b x y seed :
  seed < 2 ^ 32 -> x < 2 ^ 32 -> y < 2 ^ 32 ->
  m3_frame_buffer (a ++ x :: b) seed = m3_frame_buffer (a ++ y :: b) seed -> x = y.
Proof.
  intros Hs Hx Hy E. unfold m3_frame_buffer in E. cbv zeta in E.
  rewrite !app_length in E. cbn [length] in E.
  assert (L : forall l, N.lxor (fold_left mix l seed) (w32 (N.of_nat (length a + S (length b)))) < 2 ^ 32)
    by (intros l; apply lxor_u32; [apply fold_mix_lt; assumption|apply w32_lt]).
  apply avalanche_inj in E; [|apply L|apply L].
  apply lxor_cancel_r in E. rewrite !fold_left_app in E. cbn [fold_left] in E.
  apply fold_mix_inj in E; [|apply mix_lt|apply mix_lt].
  eapply mix_inj_key; [|eassumption|eassumption|exact E]. apply fold_mix_lt; assumption.
Qed.

Lemma fb_hash_seed l s1 s2 : s1 < 2 ^ 32 -> s2 < 2 ^ 32 ->
  m3_frame_buffer l s1 = m3_frame_buffer l s2 -> s1 = s2.
Proof.
  intros H1 H2 E. unfold m3_frame_buffer in E. cbv zeta in E.
  apply avalanche_inj in E; try (apply lxor_u32; [apply fold_mix_lt; assumption|apply w32_lt]).
  apply lxor_cancel_r in E. eapply fold_mix_inj; eassumption.
Qed.

(** The same for lists that differ in one place *)
Lemma fb_hash_differs l1 l2 seed i :
  seed < 2 ^ 32 -> Forall (fun w => w < 2 ^ 32) l1 -> Forall (fun w => w < 2 ^ 32) l2 ->
  length l1 = length l2 -> (i < length l1)%nat ->
  (forall j, j <> i -> nth j l1 0 = nth j l2 0) -> nth i l1 0 <> nth i l2 0 ->
  m3_frame_buffer l1 seed <> m3_frame_buffer l2 seed.
Proof.
  intros Hs F1 F2 Hl Hi Hsame Hdiff E.
  assert (D : forall l : list N, (i < length l)%nat -> l = firstn i l ++ nth i l 0 :: skipn (S i) l).
  { clear. intros l. revert i. induction l as [|x l IH]; intros i Hi; [simpl in Hi; lia|].
    destruct i; [reflexivity|]. simpl. f_equal. apply IH. simpl in Hi; lia. }
  assert (A : firstn i l1 = firstn i l2).
  { apply (nth_ext _ _ 0 0); [rewrite !firstn_length; lia|].
    intros n Hn. rewrite firstn_length in Hn.
    assert (G : forall l, nth n (firstn i l) 0 = nth n l 0).
    { clear -Hn. intros l. assert (n < i)%nat by lia. clear Hn. revert n i H; induction l as [|x l IH]; intros n i H.
      - rewrite firstn_nil. reflexivity.
      - destruct i; [lia|]. destruct n; [reflexivity|]. simpl. apply IH. lia. }
    rewrite !G. apply Hsame. lia. }
  assert (B : skipn (S i) l1 = skipn (S i) l2).
  { apply (nth_ext _ _ 0 0); [rewrite !skipn_length; lia|].
    intros n Hn.
    assert (G : forall l : list N, nth n (skipn (S i) l) 0 = nth (S i + n) l 0).
    { clear. intros l. generalize (S i) as k. intros k. revert l; induction k as [|k IH]; intros l; [reflexivity|].
      destruct l as [|x l]; [destruct n; reflexivity|]. simpl. apply IH. }
    rewrite !G. apply Hsame. lia. }
  apply Hdiff. rewrite (D l1), (D l2) in E by lia. rewrite A, B in E.
  eapply fb_hash_word; [exact Hs| | |exact E].
  - rewrite Forall_forall in F1. apply F1, nth_In; lia.
  - rewrite Forall_forall in F2. apply F2, nth_In; lia.
Qed.
