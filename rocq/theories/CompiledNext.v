(** * The compiled paint_str: reading characters *)
From Coq Require Import ZArith.
From Verif Require Import PrimFacts Str M3Hash FontDefs Geom FbFacts Blit Webasm WebasmLogic DemoCode SpecCompiled CompiledBase CompiledHash
  CompiledFirst CompiledChar.

Lemma high_byte x : x < 5 -> N.land (ishl (240 + x) 18) 1835008 = N.land (ishl (16 + x) 18) 1835008.
Proof.
  intros H. assert (C : x = 0 \/ x = 1 \/ x = 2 \/ x = 3 \/ x = 4) by lia. repeat destruct C as [->|C]; try reflexivity. subst x. reflexivity.
Qed.
Lemma join_apart c : c < 1114112 ->
  N.lor (N.lor (N.lor (ishl (c / 4096 mod 64) 12) (N.land (ishl (240 + c / 262144) 18) 1835008)) (ishl (c / 64 mod 64) 6)) (c mod 64) = c.
Proof.
  intros H. assert (L : c / 262144 < 5) by (apply N.div_lt_upper_bound; lia). rewrite high_byte by exact L.
  etransitivity; [|apply (join4 c H)]. f_equal.
  assert (M1 : c / 64 mod 64 < 64) by (apply N.mod_lt; discriminate). assert (M2 : c / 4096 mod 64 < 64) by (apply N.mod_lt; discriminate).
  set (a := c / 64 mod 64) in *. set (b := c / 4096 mod 64) in *. set (h := N.land (ishl (16 + c / 262144) 18) 1835008).
  assert (E : ishl (N.lor a (ishl b 6)) 6 = N.lor (ishl a 6) (ishl b 12)).
  { rewrite (ishl6 b), (ishl6 a), (ishl12 b) by lia. rewrite ishl6 by (rewrite lor_add by exact M1; lia).
    rewrite <- !N.shiftl_mul_pow2, N.shiftl_lor, N.shiftl_shiftl. reflexivity. }
  rewrite E. rewrite (N.lor_comm (N.lor (ishl b 12) h)), N.lor_assoc. reflexivity.
Qed.

Section Next.
Context (c : N) (p e : N) (m : memory) (g : list N).
Hypothesis (Hc : c < 0x110000) (Hb : bytes_at m p (utf8 c)) (He : p + len_utf8 c <= e) (Hl : e <= 2686976).

(** The test for a newline *)
Lemma read_code l0 l1 len l4 l5 l6 l7 l9 l10 l11 l12 l13 is (Q : outcome -> Prop) : len = e - p ->
  (forall l10 l11 l12 l13, wp demo_env is (St [l0; l1; len; p; l4; l5; l6; l7; e; c; l10; l11; l12; l13] g m []) Q) ->
  wp demo_env (IBlock f2_23 :: is) (St [l0; l1; len; p; l4; l5; l6; l7; e; l9; l10; l11; l12; l13] g m []) Q.
Proof.
  intros -> K. unfold utf8 in Hb. unfold len_utf8 in He. apply wp_block. unfold f2_23. apply wp_block. crun.
  destruct (N.ltb_spec c 128) as [C1|C1].
  { assert (B0 := bytes_nth m p _ 0 p Hb ltac:(cbn; lia) ltac:(lia)). cbn [nth] in B0.
    eapply wp_load8s; [rewrite N.add_0_r; rewrite load8s_low by lia; exact B0|lia|]. run.
    apply wp_not_taken; [apply signed_low'; lia|]. run. apply wp_br. next. rewrite land255, N.mod_small by lia. apply K. }
  destruct (N.ltb_spec c 2048) as [C2|C2].
  { assert (L : c / 64 < 32) by (apply N.div_lt_upper_bound; lia). assert (M : c mod 64 < 64) by (apply N.mod_lt; discriminate).
    assert (B0 := bytes_nth m p _ 0 p Hb ltac:(cbn; lia) ltac:(lia)). assert (B1 := bytes_nth m p _ 1 (p + 1) Hb ltac:(cbn; lia) ltac:(lia)). cbn [nth] in B0, B1.
    eapply wp_load8s; [rewrite N.add_0_r; rewrite load8s_high by lia; rewrite B0; reflexivity|lia|]. run.
    apply wp_taken; [apply signed_high'; lia|]. next. crun. apply wp_block. crun. apply wp_not_taken; [kill|]. run.
    eapply wp_load8u; [exact B1|lia|]. run. apply wp_nil. next. crun.
    apply wp_block. crun. rewrite low_from_high by lia. apply wp_not_taken; [kill|]. run. apply wp_br. next.
    rewrite cont_byte by exact M. rewrite (byte_from_high _ 6 (c / 64)) by lia. rewrite join2 by exact C2. apply K. }
  assert (M : c mod 64 < 64) by (apply N.mod_lt; discriminate). assert (M1 : c / 64 mod 64 < 64) by (apply N.mod_lt; discriminate).
  destruct (N.ltb_spec c 65536) as [C3|C3].
  { assert (L : c / 4096 < 16) by (apply N.div_lt_upper_bound; lia).
    assert (B0 := bytes_nth m p _ 0 p Hb ltac:(cbn; lia) ltac:(lia)). assert (B1 := bytes_nth m p _ 1 (p + 1) Hb ltac:(cbn; lia) ltac:(lia)).
    assert (B2 := bytes_nth m p _ 2 (p + 2) Hb ltac:(cbn; lia) ltac:(lia)). cbn [nth] in B0, B1, B2.
    eapply wp_load8s; [rewrite N.add_0_r; rewrite load8s_high by lia; rewrite B0; reflexivity|lia|]. run.
    apply wp_taken; [apply signed_high'; lia|]. next. crun. apply wp_block. crun. apply wp_not_taken; [kill|]. run.
    eapply wp_load8u; [exact B1|lia|]. run. apply wp_nil. next. crun.
    apply wp_block. crun. rewrite low_from_high by lia. apply wp_taken; [kill|]. next.
    rewrite (add32_small p 2) by (unfold W; lia).
    unfold f2_29. apply wp_block. unfold f2_30. apply wp_block. crun. apply wp_taken; [kill|]. next. crun.
    eapply wp_load8u; [rewrite N.add_0_r; exact B2|lia|]. run. apply wp_nil. next. crun.
    apply wp_block. crun. apply wp_not_taken; [kill|]. run. apply wp_br. next.
    rewrite !cont_byte by assumption. rewrite (byte_from_high _ 7 (c / 4096)) by lia. rewrite join3 by exact C3. apply K. }
  { assert (L : c / 262144 < 5) by (apply N.div_lt_upper_bound; lia). assert (M2 : c / 4096 mod 64 < 64) by (apply N.mod_lt; discriminate).
    assert (B0 := bytes_nth m p _ 0 p Hb ltac:(cbn; lia) ltac:(lia)). assert (B1 := bytes_nth m p _ 1 (p + 1) Hb ltac:(cbn; lia) ltac:(lia)).
    assert (B2 := bytes_nth m p _ 2 (p + 2) Hb ltac:(cbn; lia) ltac:(lia)). assert (B3 := bytes_nth m p _ 3 (p + 3) Hb ltac:(cbn; lia) ltac:(lia)). cbn [nth] in B0, B1, B2, B3.
    eapply wp_load8s; [rewrite N.add_0_r; rewrite load8s_high by lia; rewrite B0; reflexivity|lia|]. run.
    apply wp_taken; [apply signed_high'; lia|]. next. crun. apply wp_block. crun. apply wp_not_taken; [kill|]. run.
    eapply wp_load8u; [exact B1|lia|]. run. apply wp_nil. next. crun.
    apply wp_block. crun. rewrite low_from_high by lia. apply wp_taken; [kill|]. next.
    rewrite (add32_small p 2) by (unfold W; lia).
    unfold f2_29. apply wp_block. unfold f2_30. apply wp_block. crun. apply wp_taken; [kill|]. next. crun.
    eapply wp_load8u; [rewrite N.add_0_r; exact B2|lia|]. run. apply wp_nil. next. crun.
    apply wp_block. crun. apply wp_taken; [kill|]. next.
    rewrite (add32_small (p + 2) 1) by (unfold W; lia). replace (p + 2 + 1) with (p + 3) by lia.
    unfold f2_35. apply wp_block. unfold f2_36. apply wp_block. crun. apply wp_taken; [kill|]. next. crun.
    eapply wp_load8u; [rewrite N.add_0_r; exact B3|lia|]. run. apply wp_nil. next. crun.
    rewrite !cont_byte by assumption. rewrite (byte_from_high _ 7 (16 + c / 262144)) by lia. rewrite join4 by exact Hc.
    apply wp_not_taken; [kill|]. apply wp_nil. next. apply K. }
Qed.

Ltac hop := (eapply under_br; [reflexivity|]); unfold restack; cbn [locals globals mem stack].
Ltac go := first [apply wp_br; eapply under_br; [reflexivity|] | apply wp_nil; eapply under_end; [reflexivity|]]; unfold restack; cbn [locals globals mem stack].

(** Past the character that has no glyph *)
Lemma past_code l0 l1 len l4 l5 l6 l9 l10 l11 l12 l13 (Q : outcome -> Prop) : len = e - p ->
  (forall l9 l10 l11 l12, wp demo_env f2_66 (St [l0; l1; len; p; l4; l5; l6; p + len_utf8 c; e; l9; l10; l11; l12; l13] g m []) (under [f2_83] Q)) ->
  wp demo_env (ILGet 3 :: ILoad8S 0 :: ILTee 9 :: IConst 4294967295 :: IBin GtS :: IBrIf 6 :: ILGet 9 :: IConst 255 :: IBin And :: ILSet 9 :: ILGet 2 ::
      IConst 1 :: IBin Ne :: IBrIf 4 :: IConst 0 :: ILSet 10 :: ILGet 8 :: ILSet 11 :: IBr 5 :: [])
    (St [l0; l1; len; p; l4; l5; l6; p + 1; e; l9; l10; l11; l12; l13] g m []) (under [f2_42; f2_47; f2_50; f2_53; f2_56; f2_57; f2_66; f2_83] Q).
Proof.
  intros -> K. unfold utf8 in Hb. unfold len_utf8 in *. run.
  destruct (N.ltb_spec c 128) as [C1|C1].
  { assert (B0 := bytes_nth m p _ 0 p Hb ltac:(cbn; lia) ltac:(lia)). cbn [nth] in B0.
    eapply wp_load8s; [rewrite N.add_0_r; rewrite load8s_low by lia; exact B0|lia|]. run.
    apply wp_taken; [apply signed_low; lia|]. hop. apply K. }
  destruct (N.ltb_spec c 2048) as [C2|C2].
  { assert (L : c / 64 < 32) by (apply N.div_lt_upper_bound; lia). assert (M : c mod 64 < 64) by (apply N.mod_lt; discriminate).
    assert (B0 := bytes_nth m p _ 0 p Hb ltac:(cbn; lia) ltac:(lia)). assert (B1 := bytes_nth m p _ 1 (p + 1) Hb ltac:(cbn; lia) ltac:(lia)). cbn [nth] in B0, B1.
    eapply wp_load8s; [rewrite N.add_0_r; rewrite load8s_high by lia; rewrite B0; reflexivity|lia|]. run.
    apply wp_not_taken; [apply signed_high; lia|]. run. rewrite low_from_high by lia. apply wp_taken; [kill|]. hop. crun.
    eapply wp_load8u; [exact B1|lia|]. run. rewrite (add32_small p 2) by (unfold W; lia). go. crun. apply wp_taken; [kill|]. hop. apply K. }
  assert (M : c mod 64 < 64) by (apply N.mod_lt; discriminate). assert (M1 : c / 64 mod 64 < 64) by (apply N.mod_lt; discriminate).
  destruct (N.ltb_spec c 65536) as [C3|C3].
  { assert (L : c / 4096 < 16) by (apply N.div_lt_upper_bound; lia).
    assert (B0 := bytes_nth m p _ 0 p Hb ltac:(cbn; lia) ltac:(lia)). assert (B1 := bytes_nth m p _ 1 (p + 1) Hb ltac:(cbn; lia) ltac:(lia)).
    assert (B2 := bytes_nth m p _ 2 (p + 2) Hb ltac:(cbn; lia) ltac:(lia)). cbn [nth] in B0, B1, B2.
    eapply wp_load8s; [rewrite N.add_0_r; rewrite load8s_high by lia; rewrite B0; reflexivity|lia|]. run.
    apply wp_not_taken; [apply signed_high; lia|]. run. rewrite low_from_high by lia. apply wp_taken; [kill|]. hop. crun.
    eapply wp_load8u; [exact B1|lia|]. run. rewrite (add32_small p 2) by (unfold W; lia). go. crun. apply wp_not_taken; [kill|]. run.
    apply wp_block_under. code. apply wp_block_under. crun. apply wp_taken; [kill|]. hop. crun.
    eapply wp_load8u; [rewrite N.add_0_r; exact B2|lia|]. run. rewrite (add32_small (p + 2) 1) by (unfold W; lia). replace (p + 2 + 1) with (p + 3) by lia.
    go. crun. apply wp_taken; [kill|]. hop. apply K. }
  { assert (L : c / 262144 < 5) by (apply N.div_lt_upper_bound; lia). assert (M2 : c / 4096 mod 64 < 64) by (apply N.mod_lt; discriminate).
    assert (B0 := bytes_nth m p _ 0 p Hb ltac:(cbn; lia) ltac:(lia)). assert (B1 := bytes_nth m p _ 1 (p + 1) Hb ltac:(cbn; lia) ltac:(lia)).
    assert (B2 := bytes_nth m p _ 2 (p + 2) Hb ltac:(cbn; lia) ltac:(lia)). assert (B3 := bytes_nth m p _ 3 (p + 3) Hb ltac:(cbn; lia) ltac:(lia)). cbn [nth] in B0, B1, B2, B3.
    eapply wp_load8s; [rewrite N.add_0_r; rewrite load8s_high by lia; rewrite B0; reflexivity|lia|]. run.
    apply wp_not_taken; [apply signed_high; lia|]. run. rewrite low_from_high by lia. apply wp_taken; [kill|]. hop. crun.
    eapply wp_load8u; [exact B1|lia|]. run. rewrite (add32_small p 2) by (unfold W; lia). go. crun. apply wp_not_taken; [kill|]. run.
    apply wp_block_under. code. apply wp_block_under. crun. apply wp_taken; [kill|]. hop. crun.
    eapply wp_load8u; [rewrite N.add_0_r; exact B2|lia|]. run. rewrite (add32_small (p + 2) 1) by (unfold W; lia). replace (p + 2 + 1) with (p + 3) by lia.
    go. crun. apply wp_not_taken; [kill|]. run.
    apply wp_block_under. code. apply wp_block_under. crun. apply wp_taken; [kill|]. hop. crun.
    eapply wp_load8u; [rewrite N.add_0_r; exact B3|lia|]. run. rewrite (add32_small (p + 3) 1) by (unfold W; lia). replace (p + 3 + 1) with (p + 4) by lia.
    go. crun. apply wp_not_taken; [|go; apply K].
    rewrite !cont_byte by assumption. rewrite join_apart by exact Hc. kill. }
Qed.

(** The character after it *)
Lemma second_code l0 l1 l2 l3 l4 l5 l6 l9 l10 l11 l12 l13 is (Q : outcome -> Prop) :
  (forall l8 l9 l10 l11 l12, wp demo_env is (St [l0; l1; l2; l3; l4; l5; l6; p; l8; l9; l10; l11; l12; l13] g m []) Q) ->
  wp demo_env (IBlock f2_67 :: is) (St [l0; l1; l2; l3; l4; l5; l6; p; e; l9; l10; l11; l12; l13] g m []) Q.
Proof.
  intros K. change Q with (under [] Q). apply wp_block_under. change (under [] Q) with Q. unfold utf8 in Hb. unfold len_utf8 in *. crun.
  destruct (N.ltb_spec c 128) as [C1|C1].
  { assert (B0 := bytes_nth m p _ 0 p Hb ltac:(cbn; lia) ltac:(lia)). cbn [nth] in B0.
    eapply wp_load8s; [rewrite N.add_0_r; rewrite load8s_low by lia; exact B0|lia|]. run.
    apply wp_taken; [apply signed_low; lia|]. hop. apply K. }
  destruct (N.ltb_spec c 2048) as [C2|C2].
  { assert (L : c / 64 < 32) by (apply N.div_lt_upper_bound; lia). assert (M : c mod 64 < 64) by (apply N.mod_lt; discriminate).
    assert (B0 := bytes_nth m p _ 0 p Hb ltac:(cbn; lia) ltac:(lia)). assert (B1 := bytes_nth m p _ 1 (p + 1) Hb ltac:(cbn; lia) ltac:(lia)). cbn [nth] in B0, B1.
    eapply wp_load8s; [rewrite N.add_0_r; rewrite load8s_high by lia; rewrite B0; reflexivity|lia|]. run.
    apply wp_not_taken; [apply signed_high; lia|]. run. rewrite low_from_high by lia. apply wp_block_under. code. apply wp_block_under. crun.
    rewrite (add32_small p 1) by (unfold W; lia). destruct (N.eq_dec (p + 1) e) as [Z|Z]; [exfalso; lia|].
    apply wp_taken; [kill|]. hop. crun. eapply wp_load8u; [exact B1|lia|]. run. go. crun. apply wp_taken; [kill|]. hop. apply K. }
  assert (M : c mod 64 < 64) by (apply N.mod_lt; discriminate). assert (M1 : c / 64 mod 64 < 64) by (apply N.mod_lt; discriminate).
  destruct (N.ltb_spec c 65536) as [C3|C3].
  { assert (L : c / 4096 < 16) by (apply N.div_lt_upper_bound; lia).
    assert (B0 := bytes_nth m p _ 0 p Hb ltac:(cbn; lia) ltac:(lia)). assert (B1 := bytes_nth m p _ 1 (p + 1) Hb ltac:(cbn; lia) ltac:(lia)).
    assert (B2 := bytes_nth m p _ 2 (p + 2) Hb ltac:(cbn; lia) ltac:(lia)). cbn [nth] in B0, B1, B2.
    eapply wp_load8s; [rewrite N.add_0_r; rewrite load8s_high by lia; rewrite B0; reflexivity|lia|]. run.
    apply wp_not_taken; [apply signed_high; lia|]. run. rewrite low_from_high by lia. apply wp_block_under. code. apply wp_block_under. crun.
    rewrite (add32_small p 1) by (unfold W; lia).
    apply wp_taken; [kill|]. hop. crun. eapply wp_load8u; [exact B1|lia|]. run. go. crun. apply wp_not_taken; [kill|]. run.
    rewrite (add32_small p 2) by (unfold W; lia).
    apply wp_block_under. code. apply wp_block_under. crun. apply wp_taken; [kill|]. hop. crun.
    eapply wp_load8u; [rewrite N.add_0_r; exact B2|lia|]. run. go. crun. apply wp_taken; [kill|]. hop. apply K. }
  { assert (L : c / 262144 < 5) by (apply N.div_lt_upper_bound; lia). assert (M2 : c / 4096 mod 64 < 64) by (apply N.mod_lt; discriminate).
    assert (B0 := bytes_nth m p _ 0 p Hb ltac:(cbn; lia) ltac:(lia)). assert (B1 := bytes_nth m p _ 1 (p + 1) Hb ltac:(cbn; lia) ltac:(lia)).
    assert (B2 := bytes_nth m p _ 2 (p + 2) Hb ltac:(cbn; lia) ltac:(lia)). assert (B3 := bytes_nth m p _ 3 (p + 3) Hb ltac:(cbn; lia) ltac:(lia)). cbn [nth] in B0, B1, B2, B3.
    eapply wp_load8s; [rewrite N.add_0_r; rewrite load8s_high by lia; rewrite B0; reflexivity|lia|]. run.
    apply wp_not_taken; [apply signed_high; lia|]. run. rewrite low_from_high by lia. apply wp_block_under. code. apply wp_block_under. crun.
    rewrite (add32_small p 1) by (unfold W; lia).
    apply wp_taken; [kill|]. hop. crun. eapply wp_load8u; [exact B1|lia|]. run. go. crun. apply wp_not_taken; [kill|]. run.
    rewrite (add32_small p 2) by (unfold W; lia).
    apply wp_block_under. code. apply wp_block_under. crun. apply wp_taken; [kill|]. hop. crun.
    eapply wp_load8u; [rewrite N.add_0_r; exact B2|lia|]. run. rewrite (add32_small (p + 2) 1) by (unfold W; lia). replace (p + 2 + 1) with (p + 3) by lia.
    go. crun. apply wp_not_taken; [kill|]. run.
    apply wp_block_under. code. apply wp_block_under. crun. apply wp_taken; [kill|]. hop. crun.
    eapply wp_load8u; [rewrite N.add_0_r; exact B3|lia|]. run.
    go. crun. apply wp_not_taken; [|go; apply K].
    rewrite !cont_byte by assumption. rewrite join_apart by exact Hc. kill. }
Qed.
End Next.

(** ** Where a slice begins *)
Lemma signed_start b : b < 128 \/ 192 <= b -> b < 256 -> (signed (if (b <? 128)%N then b else (b + 4294967040)%N) <=? signed 4294967231)%Z = false.
Proof.
  intros H K. apply Z.leb_gt. replace (signed 4294967231) with (-65)%Z by reflexivity. unfold signed.
  destruct (N.ltb_spec b 128) as [A|A]; match goal with |- context [(?x <? 2147483648)%N] => destruct (N.ltb_spec x 2147483648) end; lia.
Qed.
Lemma first_byte c : c < 0x110000 -> nth 0 (utf8 c) 0 < 128 \/ 192 <= nth 0 (utf8 c) 0 /\ nth 0 (utf8 c) 0 < 256.
Proof.
  intros H. unfold utf8. destruct (N.ltb_spec c 128) as [A|A]; [left; exact A|right]. destruct (N.ltb_spec c 2048) as [B|B]; cbn [nth].
  { assert (c / 64 < 32) by (apply N.div_lt_upper_bound; lia). lia. }
  destruct (N.ltb_spec c 65536) as [D|D]; cbn [nth].
  - assert (c / 4096 < 16) by (apply N.div_lt_upper_bound; lia). lia.
  - assert (c / 262144 < 5) by (apply N.div_lt_upper_bound; lia). lia.
Qed.
Lemma slice_at s : forall k t m p, slice_from s k = Ret t -> chars s -> str_at m p s -> str_len t + k = str_len s /\ chars t /\ str_at m (p + k) t.
Proof.
  induction s as [|c s IH]; intros k t m p E Hc Hs; cbn [slice_from] in E; destruct (N.eqb_spec k 0) as [->|K].
  - injection E as <-. rewrite !N.add_0_r. split; [reflexivity|]. split; assumption.
  - discriminate E.
  - injection E as <-. rewrite !N.add_0_r. split; [reflexivity|]. split; assumption.
  - destruct (N.leb_spec (len_utf8 c) k) as [L|L]; [|discriminate E]. inversion Hc as [|? ? Hc0 Hc1]. destruct (str_at_cons m p c s Hs) as (_ & Hs').
    destruct (IH _ _ m (p + len_utf8 c) E Hc1 Hs') as (A & B & D). cbn [str_len]. replace (p + len_utf8 c + (k - len_utf8 c)) with (p + k) in D by lia.
    split; [lia|]. split; assumption.
Qed.

(** The check that a slice begins at a character *)
Lemma bound_code s k t p l0 l1 l4 l5 l6 l7 l8 l10 l11 l12 l13 j g m (Q : outcome -> Prop) :
  slice_from s k = Ret t -> chars s -> str_at m p s -> p + str_len s <= 2686976 ->
  Q (Branch 0 (St [l0; l1; str_len s; p; l4; l5; l6; l7; l8; k; l10; l11; l12; l13] g m [])) ->
  Q (Done (St [l0; l1; str_len s; p; l4; l5; l6; l7; l8; k; l10; l11; l12; l13] g m [])) ->
  wp demo_env (IEqz :: IBrIf 0 :: ILGet 2 :: ILGet 9 :: IBin Eq :: IBrIf 0 :: ILGet 2 :: ILGet 9 :: IBin LeU :: IBrIf j :: ILGet 3 :: ILGet 9 :: IBin Add ::
      ILoad8S 0 :: IConst 4294967231 :: IBin LeS :: IBrIf j :: [])
    (St [l0; l1; str_len s; p; l4; l5; l6; l7; l8; k; l10; l11; l12; l13] g m [k]) Q.
Proof.
  intros E Hc Hs Hp HB HD. destruct (slice_at s k t m p E Hc Hs) as (A & B & D).
  run. apply wp_if; intros Z; [exact HB|]. run. apply wp_if; intros Y; [exact HB|]. apply N.eqb_neq in Y. run.
  apply wp_not_taken; [apply N.leb_gt; lia|]. run. rewrite add32_small by (unfold W; lia).
  destruct t as [|d t]; [cbn [str_len] in A; lia|]. inversion B as [|? ? Hd _]. destruct (str_at_cons m (p + k) d t D) as (Hb & _).
  assert (B0 := bytes_nth m (p + k) _ 0 (p + k) Hb ltac:(assert (X := utf8_length d); assert (Y' := len_utf8_pos d); lia) ltac:(lia)). assert (F := first_byte d Hd).
  eapply wp_load8s; [rewrite N.add_0_r; unfold load8s; rewrite B0; reflexivity|lia|]. run.
  apply wp_not_taken; [apply signed_start; lia|]. apply wp_nil. exact HD.
Qed.
