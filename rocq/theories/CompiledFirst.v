(** * The compiled xor_char: reading the first character, and looking tables up *)
From Coq Require Import ZArith.
From Verif Require Import PrimFacts Str M3Hash FontDefs Geom FbFacts Blit Webasm WebasmLogic DemoCode SpecCompiled CompiledBase CompiledHash
  CompiledFind CompiledFile CompiledTables Fonts.

(** ** Tests of ranges *)
Lemma range_test c lo n : c < 0x110000 -> lo < 0x110000 -> n < 0x110000 -> (add32 c (W - lo) <? n) = (lo <=? c) && (c <? lo + n).
Proof.
  intros Hc Hlo Hn. unfold add32. destruct (N.leb_spec lo c) as [A|A]; cbn [andb].
  - replace (c + (W - lo)) with (c - lo + 1 * W) by (unfold W; lia). rewrite N.mod_add by discriminate. rewrite N.mod_small by (unfold W; lia).
    destruct (N.ltb_spec (c - lo) n), (N.ltb_spec c (lo + n)); lia || reflexivity.
  - rewrite N.mod_small by (unfold W; lia). apply N.ltb_ge. unfold W; lia.
Qed.
Lemma mask_test c k v : c < 2097152 -> k <= 21 -> (N.land c (2097152 - 2 ^ k) =? v * 2 ^ k) = (v * 2 ^ k <=? c) && (c <? (v + 1) * 2 ^ k).
Proof.
  intros Hc Hk. assert (P : 2 ^ k <> 0) by (apply N.pow_nonzero; discriminate).
  assert (E : N.land c (2097152 - 2 ^ k) = c / 2 ^ k * 2 ^ k).
  { rewrite <- N.shiftr_div_pow2, <- N.shiftl_mul_pow2. apply N.bits_inj. intros i.
    assert (M : 2097152 - 2 ^ k = N.shiftl (N.ones (21 - k)) k).
    { rewrite N.shiftl_mul_pow2, N.ones_equiv, N.pred_sub, N.mul_sub_distr_r, <- N.pow_add_r, N.mul_1_l. do 2 f_equal. replace (21 - k + k) with 21 by lia. reflexivity. }
    rewrite M, N.land_spec. destruct (N.lt_ge_cases i k) as [A|A].
    - rewrite !N.shiftl_spec_low by exact A. apply Bool.andb_false_r.
    - rewrite !N.shiftl_spec_high' by exact A. rewrite N.shiftr_spec'. replace (i - k + k) with i by lia.
      destruct (N.lt_ge_cases i 21) as [B|B].
      + rewrite N.ones_spec_low by lia. apply Bool.andb_true_r.
      + rewrite N.ones_spec_high by lia. rewrite Bool.andb_false_r. symmetry. destruct (N.eq_dec c 0) as [->|Z]; [apply N.bits_0|].
        apply N.bits_above_log2. apply N.lt_le_trans with 21; [|exact B]. apply N.log2_lt_pow2; [lia|exact Hc]. }
  rewrite E. assert (D := N.div_mod c (2 ^ k) P). assert (R := N.mod_lt c (2 ^ k) P). set (q := c / 2 ^ k) in *. set (z := 2 ^ k) in *.
  destruct (N.eqb_spec (q * z) (v * z)) as [A|A].
  - assert (q = v) by (apply N.mul_cancel_r in A; assumption). subst v. symmetry. apply Bool.andb_true_iff. split; [apply N.leb_le; nia|apply N.ltb_lt; nia].
  - symmetry. apply Bool.andb_false_iff. destruct (N.lt_ge_cases q v) as [B|B]; [left; apply N.leb_gt; nia|right; apply N.ltb_ge].
    assert (v < q) by nia. nia.
Qed.

(** ** The first character *)
Lemma signed_low' a : a < 2147483648 -> (signed a <=? signed 4294967295)%Z = false.
Proof. intros H. apply Z.leb_gt. unfold signed. destruct (N.ltb_spec a 2147483648); [|lia]. cbn. lia. Qed.
Lemma signed_high' a : 2147483648 <= a -> a <= 4294967295 -> (signed a <=? signed 4294967295)%Z = true.
Proof. intros H K. apply Z.leb_le. unfold signed. destruct (N.ltb_spec a 2147483648); [lia|]. cbn. lia. Qed.

Section First.
Context (c : N) (p len : N) (m : memory) (g : list N) (Q : outcome -> Prop).
Hypothesis (Hc : c < 0x110000) (Hb : bytes_at m p (utf8 c)) (He : len_utf8 c <= len) (Hl : p + len <= 2686976).

Lemma first_code l0 l1 l2 l5 l6 l7 l8 l9 l10 l11 l12 l13 l14 l15 l16 l17 l18 l19 l20 l21 l22 l23 n is :
  (c < 128 -> Q (Branch 0 (St [l0; l1; l2; p; len; l5; l6; l7; l8; l9; c; l11; l12; l13; l14; l15; l16; l17; l18; l19; l20; l21; l22; l23] g m []))) ->
  (128 <= c -> forall l11 l12 l13 l14 l15,
    wp demo_env is (St [l0; l1; l2; p; len; l5; l6; l7; l8; l9; c; l11; l12; l13; l14; l15; l16; l17; l18; l19; l20; l21; l22; l23] g m []) Q) ->
  wp demo_env (ILGet 3 :: ILoad8S 0 :: ILTee 10 :: IConst 4294967295 :: IBin GtS :: IBrIf 0 :: IConst 0 :: ILSet 11 ::
      ILGet 3 :: ILGet 4 :: IBin Add :: ILTee 12 :: ILSet 13 :: IBlock f27_101 ::
      ILGet 10 :: IConst 31 :: IBin And :: ILSet 14 :: IBlock (first_char n) :: is)
    (St [l0; l1; l2; p; len; l5; l6; l7; l8; l9; l10; l11; l12; l13; l14; l15; l16; l17; l18; l19; l20; l21; l22; l23] g m []) Q.
Proof.
  intros HA K. unfold utf8 in Hb. unfold len_utf8 in He. run.
  destruct (N.ltb_spec c 128) as [C1|C1].
  { assert (B0 := bytes_nth m p _ 0 p Hb ltac:(cbn; lia) ltac:(lia)). cbn [nth] in B0.
    eapply wp_load8s; [rewrite N.add_0_r; rewrite load8s_low by lia; exact B0|lia|]. run.
    apply wp_taken; [apply signed_low; lia|]. apply HA. exact C1. }
  destruct (N.ltb_spec c 2048) as [C2|C2].
  { assert (L : c / 64 < 32) by (apply N.div_lt_upper_bound; lia). assert (M : c mod 64 < 64) by (apply N.mod_lt; discriminate).
    assert (B0 := bytes_nth m p _ 0 p Hb ltac:(cbn; lia) ltac:(lia)). assert (B1 := bytes_nth m p _ 1 (p + 1) Hb ltac:(cbn; lia) ltac:(lia)). cbn [nth] in B0, B1.
    eapply wp_load8s; [rewrite N.add_0_r; rewrite load8s_high by lia; rewrite B0; reflexivity|lia|]. run.
    apply wp_not_taken; [apply signed_high; lia|]. run. apply wp_block. crun. apply wp_not_taken; [kill|]. run.
    eapply wp_load8u; [exact B1|lia|]. run. apply wp_nil. next. run.
    apply wp_block. unfold first_char. apply wp_block. crun. rewrite low_from_high by lia. apply wp_not_taken; [kill|]. run. apply wp_br. next.
    rewrite cont_byte by exact M. rewrite (byte_from_high _ 6 (c / 64)) by lia. rewrite join2 by exact C2. apply K. lia. }
  assert (M : c mod 64 < 64) by (apply N.mod_lt; discriminate). assert (M1 : c / 64 mod 64 < 64) by (apply N.mod_lt; discriminate).
  destruct (N.ltb_spec c 65536) as [C3|C3].
  { assert (L : c / 4096 < 16) by (apply N.div_lt_upper_bound; lia).
    assert (B0 := bytes_nth m p _ 0 p Hb ltac:(cbn; lia) ltac:(lia)). assert (B1 := bytes_nth m p _ 1 (p + 1) Hb ltac:(cbn; lia) ltac:(lia)).
    assert (B2 := bytes_nth m p _ 2 (p + 2) Hb ltac:(cbn; lia) ltac:(lia)). cbn [nth] in B0, B1, B2.
    eapply wp_load8s; [rewrite N.add_0_r; rewrite load8s_high by lia; rewrite B0; reflexivity|lia|]. run.
    apply wp_not_taken; [apply signed_high; lia|]. run. apply wp_block. crun. apply wp_not_taken; [kill|]. run.
    eapply wp_load8u; [exact B1|lia|]. run. apply wp_nil. next. run.
    apply wp_block. unfold first_char. apply wp_block. crun. rewrite low_from_high by lia. apply wp_taken; [kill|]. next.
    rewrite (add32_small p 2) by (unfold W; lia). rewrite (add32_small p len) by (unfold W; lia).
    unfold first_2. apply wp_block. unfold first_3. apply wp_block. crun. apply wp_taken; [kill|]. next. crun.
    eapply wp_load8u; [rewrite N.add_0_r; exact B2|lia|]. run. apply wp_nil. next. crun.
    apply wp_block. crun. rewrite low_from_high by lia. apply wp_not_taken; [kill|]. run. apply wp_br. next.
    rewrite !cont_byte by assumption. rewrite (byte_from_high _ 7 (c / 4096)) by lia. rewrite join3 by exact C3. apply K. lia. }
  { assert (L : c / 262144 < 5) by (apply N.div_lt_upper_bound; lia). assert (M2 : c / 4096 mod 64 < 64) by (apply N.mod_lt; discriminate).
    assert (B0 := bytes_nth m p _ 0 p Hb ltac:(cbn; lia) ltac:(lia)). assert (B1 := bytes_nth m p _ 1 (p + 1) Hb ltac:(cbn; lia) ltac:(lia)).
    assert (B2 := bytes_nth m p _ 2 (p + 2) Hb ltac:(cbn; lia) ltac:(lia)). assert (B3 := bytes_nth m p _ 3 (p + 3) Hb ltac:(cbn; lia) ltac:(lia)). cbn [nth] in B0, B1, B2, B3.
    eapply wp_load8s; [rewrite N.add_0_r; rewrite load8s_high by lia; rewrite B0; reflexivity|lia|]. run.
    apply wp_not_taken; [apply signed_high; lia|]. run. apply wp_block. crun. apply wp_not_taken; [kill|]. run.
    eapply wp_load8u; [exact B1|lia|]. run. apply wp_nil. next. run.
    apply wp_block. unfold first_char. apply wp_block. crun. rewrite low_from_high by lia. apply wp_taken; [kill|]. next.
    rewrite (add32_small p 2) by (unfold W; lia). rewrite (add32_small p len) by (unfold W; lia).
    unfold first_2. apply wp_block. unfold first_3. apply wp_block. crun. apply wp_taken; [kill|]. next. crun.
    eapply wp_load8u; [rewrite N.add_0_r; exact B2|lia|]. run. apply wp_nil. next. crun.
    apply wp_block. crun. rewrite low_from_high by lia. apply wp_taken; [kill|]. next.
    rewrite (add32_small (p + 2) 1) by (unfold W; lia). replace (p + 2 + 1) with (p + 3) by lia.
    unfold first_8. apply wp_block. unfold first_9. apply wp_block. crun. apply wp_taken; [kill|]. next. crun.
    eapply wp_load8u; [rewrite N.add_0_r; exact B3|lia|]. run. apply wp_nil. next. crun.
    rewrite !cont_byte by assumption. rewrite (byte_from_high _ 7 (16 + c / 262144)) by lia. rewrite join4 by exact Hc.
    apply wp_not_taken; [kill|]. apply wp_nil. next. apply K. lia. }
Qed.

Lemma first_hanzi l0 l1 l2 l5 l6 l7 l8 l9 l10 l11 l12 l13 l14 l15 l16 l17 l18 l19 l20 l21 l22 l23 :
  (forall l11 l12 l13 l14 l15,
    Q (Branch 37 (St [l0; l1; l2; p; len; l5; l6; l7; l8; l9; c; l11; l12; l13; l14; l15; l16; l17; l18; l19; l20; l21; l22; l23] g m []))) ->
  wp demo_env f27_57
    (St [l0; l1; l2; p; len; l5; l6; l7; l8; l9; l10; l11; l12; l13; l14; l15; l16; l17; l18; l19; l20; l21; l22; l23] g m []) Q.
Proof.
  intros K. unfold utf8 in Hb. unfold len_utf8 in He. unfold f27_57. apply wp_block. crun.
  destruct (N.ltb_spec c 128) as [C1|C1].
  { assert (B0 := bytes_nth m p _ 0 p Hb ltac:(cbn; lia) ltac:(lia)). cbn [nth] in B0.
    eapply wp_load8s; [rewrite N.add_0_r; rewrite load8s_low by lia; exact B0|lia|]. run.
    apply wp_not_taken; [apply signed_low'; lia|]. run. apply wp_br. next. rewrite land255, N.mod_small by lia. apply K. }
  destruct (N.ltb_spec c 2048) as [C2|C2].
  { assert (L : c / 64 < 32) by (apply N.div_lt_upper_bound; lia). assert (M : c mod 64 < 64) by (apply N.mod_lt; discriminate).
    assert (B0 := bytes_nth m p _ 0 p Hb ltac:(cbn; lia) ltac:(lia)). assert (B1 := bytes_nth m p _ 1 (p + 1) Hb ltac:(cbn; lia) ltac:(lia)). cbn [nth] in B0, B1.
    eapply wp_load8s; [rewrite N.add_0_r; rewrite load8s_high by lia; rewrite B0; reflexivity|lia|]. run.
    apply wp_taken; [apply signed_high'; lia|]. next. crun. apply wp_block. crun. apply wp_not_taken; [kill|]. run.
    eapply wp_load8u; [exact B1|lia|]. run. apply wp_nil. next. crun.
    apply wp_block. crun. rewrite low_from_high by lia. apply wp_not_taken; [kill|]. run. apply wp_br. next.
    rewrite cont_byte by exact M. rewrite (byte_from_high _ 6 (c / 64)) by lia. rewrite join2 by exact C2. apply K. }
  assert (M : c mod 64 < 64) by (apply N.mod_lt; discriminate). assert (M1 : c / 64 mod 64 < 64) by (apply N.mod_lt; discriminate).
  destruct (N.ltb_spec c 65536) as [C3|C3].
  { assert (L : c / 4096 < 16) by (apply N.div_lt_upper_bound; lia).
    assert (B0 := bytes_nth m p _ 0 p Hb ltac:(cbn; lia) ltac:(lia)). assert (B1 := bytes_nth m p _ 1 (p + 1) Hb ltac:(cbn; lia) ltac:(lia)).
    assert (B2 := bytes_nth m p _ 2 (p + 2) Hb ltac:(cbn; lia) ltac:(lia)). cbn [nth] in B0, B1, B2.
    eapply wp_load8s; [rewrite N.add_0_r; rewrite load8s_high by lia; rewrite B0; reflexivity|lia|]. run.
    apply wp_taken; [apply signed_high'; lia|]. next. crun. apply wp_block. crun. apply wp_not_taken; [kill|]. run.
    eapply wp_load8u; [exact B1|lia|]. run. apply wp_nil. next. crun.
    apply wp_block. crun. rewrite low_from_high by lia. apply wp_taken; [kill|]. next.
    rewrite (add32_small p 2) by (unfold W; lia). rewrite (add32_small p len) by (unfold W; lia).
    unfold f27_63. apply wp_block. unfold f27_64. apply wp_block. crun. apply wp_taken; [kill|]. next. crun.
    eapply wp_load8u; [rewrite N.add_0_r; exact B2|lia|]. run. apply wp_nil. next. crun.
    apply wp_block. crun. rewrite low_from_high by lia. apply wp_not_taken; [kill|]. run. apply wp_br. next.
    rewrite !cont_byte by assumption. rewrite (byte_from_high _ 7 (c / 4096)) by lia. rewrite join3 by exact C3. apply K. }
  { assert (L : c / 262144 < 5) by (apply N.div_lt_upper_bound; lia). assert (M2 : c / 4096 mod 64 < 64) by (apply N.mod_lt; discriminate).
    assert (B0 := bytes_nth m p _ 0 p Hb ltac:(cbn; lia) ltac:(lia)). assert (B1 := bytes_nth m p _ 1 (p + 1) Hb ltac:(cbn; lia) ltac:(lia)).
    assert (B2 := bytes_nth m p _ 2 (p + 2) Hb ltac:(cbn; lia) ltac:(lia)). assert (B3 := bytes_nth m p _ 3 (p + 3) Hb ltac:(cbn; lia) ltac:(lia)). cbn [nth] in B0, B1, B2, B3.
    eapply wp_load8s; [rewrite N.add_0_r; rewrite load8s_high by lia; rewrite B0; reflexivity|lia|]. run.
    apply wp_taken; [apply signed_high'; lia|]. next. crun. apply wp_block. crun. apply wp_not_taken; [kill|]. run.
    eapply wp_load8u; [exact B1|lia|]. run. apply wp_nil. next. crun.
    apply wp_block. crun. rewrite low_from_high by lia. apply wp_taken; [kill|]. next.
    rewrite (add32_small p 2) by (unfold W; lia). rewrite (add32_small p len) by (unfold W; lia).
    unfold f27_63. apply wp_block. unfold f27_64. apply wp_block. crun. apply wp_taken; [kill|]. next. crun.
    eapply wp_load8u; [rewrite N.add_0_r; exact B2|lia|]. run. apply wp_nil. next. crun.
    apply wp_block. crun. rewrite low_from_high by lia. apply wp_taken; [kill|]. next.
    rewrite (add32_small (p + 2) 1) by (unfold W; lia). replace (p + 2 + 1) with (p + 3) by lia.
    unfold f27_69. apply wp_block. unfold f27_70. apply wp_block. crun. apply wp_taken; [kill|]. next. crun.
    eapply wp_load8u; [rewrite N.add_0_r; exact B3|lia|]. run. apply wp_nil. next. crun.
    rewrite !cont_byte by assumption. rewrite (byte_from_high _ 7 (16 + c / 262144)) by lia. rewrite join4 by exact Hc.
    apply wp_taken; [kill|]. apply K. }
Qed.
End First.
