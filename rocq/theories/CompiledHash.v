(** * The compiled grapheme_cluster *)
From Coq Require Import ZArith.
From Verif Require Import PrimFacts Str M3Hash Geom FbFacts Webasm WebasmLogic DemoCode SpecCompiled CompiledBase.

(** ** Bits of bytes *)
Lemma lor_add k a b : a < 2 ^ k -> N.lor a (b * 2 ^ k) = a + b * 2 ^ k.
Proof.
  intros H. assert (Z : N.land a (b * 2 ^ k) = 0).
  { apply N.bits_inj. intros i. rewrite N.land_spec, N.bits_0. destruct (N.lt_ge_cases i k) as [L|L].
    - rewrite N.mul_pow2_bits_low by exact L. apply andb_false_r.
    - rewrite (testbit_high a k i) by assumption. reflexivity. }
  rewrite <- N.lxor_lor by exact Z. symmetry. apply N.add_nocarry_lxor. exact Z.
Qed.
Lemma land_low k a : N.land a (N.ones k) = a mod 2 ^ k. Proof. apply N.land_ones. Qed.
Lemma land63 a : N.land a 63 = a mod 64. Proof. exact (N.land_ones a 6). Qed.
Lemma land31 a : N.land a 31 = a mod 32. Proof. exact (N.land_ones a 5). Qed.
Lemma land255 a : N.land a 255 = a mod 256. Proof. exact (N.land_ones a 8). Qed.
Lemma ishl_small a k : k < 32 -> a * 2 ^ k < W -> ishl a k = a * 2 ^ k.
Proof. intros H K. unfold ishl. rewrite (N.mod_small k 32) by exact H. rewrite N.shiftl_mul_pow2. apply N.mod_small. exact K. Qed.
Lemma ishl6 a : a < 67108864 -> ishl a 6 = a * 2 ^ 6. Proof. intros H. apply ishl_small; [reflexivity|]. change (2 ^ 6) with 64. unfold W. lia. Qed.
Lemma ishl12 a : a < 1048576 -> ishl a 12 = a * 2 ^ 12. Proof. intros H. apply ishl_small; [reflexivity|]. change (2 ^ 12) with 4096. unfold W. lia. Qed.
Lemma ishl18 a : a < 16384 -> ishl a 18 = a * 2 ^ 18. Proof. intros H. apply ishl_small; [reflexivity|]. change (2 ^ 18) with 262144. unfold W. lia. Qed.

(** ** The bytes of a character *)
Lemma utf8_length c : N.of_nat (length (utf8 c)) = len_utf8 c.
Proof. unfold utf8, len_utf8. destruct (c <? 128); [reflexivity|]. destruct (c <? 2048); [reflexivity|]. destruct (c <? 65536); reflexivity. Qed.
Lemma load8s_low m a : m a < 128 -> load8s m a = m a.
Proof. intros H. unfold load8s. destruct (N.ltb_spec (m a) 128); [reflexivity|lia]. Qed.
Lemma load8s_high m a : 128 <= m a -> load8s m a = m a + 4294967040.
Proof. intros H. unfold load8s. destruct (N.ltb_spec (m a) 128); [lia|reflexivity]. Qed.
Lemma signed_low a : a < 2147483648 -> (signed 4294967295 <? signed a)%Z = true.
Proof. intros H. apply Z.ltb_lt. unfold signed. destruct (N.ltb_spec a 2147483648); [|lia]. cbn. lia. Qed.
Lemma signed_high a : 2147483648 <= a -> a <= 4294967295 -> (signed 4294967295 <? signed a)%Z = false.
Proof. intros H K. apply Z.ltb_ge. unfold signed. destruct (N.ltb_spec a 2147483648); [lia|]. cbn. lia. Qed.

Lemma byte_from_high b k x : b = k * 32 + x -> x < 32 -> N.land (b + 4294967040) 31 = x.
Proof. intros -> H. rewrite land31. replace (k * 32 + x + 4294967040) with (x + (k + 134217720) * 32) by lia. rewrite N.mod_add by discriminate. apply N.mod_small. exact H. Qed.
Lemma low_from_high b : b < 256 -> N.land (b + 4294967040) 255 = b.
Proof. intros H. rewrite land255. replace (b + 4294967040) with (b + 16777215 * 256) by lia. rewrite N.mod_add by discriminate. apply N.mod_small. exact H. Qed.
Lemma cont_byte x : x < 64 -> N.land (128 + x) 63 = x.
Proof. intros H. rewrite land63. replace (128 + x) with (x + 2 * 64) by lia. rewrite N.mod_add by discriminate. apply N.mod_small. exact H. Qed.

(** The parts of a character *)
Lemma split6 c : c = c mod 64 + c / 64 * 64. Proof. assert (D := N.div_mod c 64 ltac:(discriminate)). lia. Qed.

Lemma mid_bits x : x < 8 -> N.land ((16 + x) * 2 ^ 18) 1835008 = x * 2 ^ 18.
Proof.
  intros H. assert (C : x = 0 \/ x = 1 \/ x = 2 \/ x = 3 \/ x = 4 \/ x = 5 \/ x = 6 \/ x = 7) by lia.
  repeat destruct C as [->|C]; try reflexivity. subst x. reflexivity.
Qed.

Lemma join2 c : c < 2048 -> N.lor (c mod 64) (ishl (c / 64) 6) = c.
Proof.
  intros H. assert (c / 64 < 32) by (apply N.div_lt_upper_bound; lia). rewrite ishl6 by lia.
  rewrite lor_add by (apply N.mod_lt; discriminate). symmetry. apply split6.
Qed.
Lemma join_mid c : c < 1114112 -> N.lor (c / 64 mod 64) (ishl (c / 4096 mod 64) 6) = c / 64 mod 4096.
Proof.
  intros H. assert (M : c / 4096 mod 64 < 64) by (apply N.mod_lt; discriminate). rewrite ishl6 by lia.
  rewrite lor_add by (apply N.mod_lt; discriminate). change (2 ^ 6) with 64.
  replace (c / 4096) with (c / 64 / 64) by (rewrite N.div_div by discriminate; reflexivity).
  change 4096 with (64 * 64). rewrite N.mod_mul_r by discriminate. lia.
Qed.
Lemma join3 c : c < 65536 -> N.lor (N.lor (c mod 64) (ishl (c / 64 mod 64) 6)) (ishl (c / 4096) 12) = c.
Proof.
  intros H. assert (c / 4096 < 16) by (apply N.div_lt_upper_bound; lia).
  assert (M : c / 64 mod 64 < 64) by (apply N.mod_lt; discriminate). assert (M0 : c mod 64 < 64) by (apply N.mod_lt; discriminate).
  rewrite ishl6 by lia. rewrite lor_add by exact M0. rewrite ishl12 by lia.
  rewrite lor_add by (change (2 ^ 6) with 64; change (2 ^ 12) with 4096; lia).
  change (2 ^ 6) with 64. change (2 ^ 12) with 4096.
  assert (D := split6 c). assert (D2 := split6 (c / 64)). rewrite N.div_div in D2 by discriminate. change (64 * 64) with 4096 in D2. lia.
Qed.
Lemma join4 c : c < 1114112 ->
  N.lor (N.lor (ishl (N.lor (c / 64 mod 64) (ishl (c / 4096 mod 64) 6)) 6) (N.land (ishl (16 + c / 262144) 18) 1835008)) (c mod 64) = c.
Proof.
  intros H. assert (L : c / 262144 < 5) by (apply N.div_lt_upper_bound; lia).
  rewrite join_mid by exact H. assert (M : c / 64 mod 4096 < 4096) by (apply N.mod_lt; discriminate). assert (M0 : c mod 64 < 64) by (apply N.mod_lt; discriminate).
  rewrite ishl18 by lia. rewrite mid_bits by lia. rewrite ishl6 by lia.
  rewrite lor_add by (change (2 ^ 6) with 64; change (2 ^ 18) with 262144; lia).
  rewrite N.lor_comm. change (2 ^ 18) with (4096 * 2 ^ 6). rewrite N.mul_assoc, <- N.mul_add_distr_r. rewrite lor_add by exact M0.
  change (2 ^ 6) with 64. assert (D := split6 c). assert (D2 := N.div_mod (c / 64) 4096 ltac:(discriminate)).
  rewrite N.div_div in D2 by discriminate. change (64 * 4096) with 262144 in D2. lia.
Qed.

(** ** Reading a character *)
Lemma bytes_nth m p l i a : bytes_at m p l -> (i < length l)%nat -> a = p + N.of_nat i -> m a = nth i l 0.
Proof. intros H Hi ->. apply H. exact Hi. Qed.

Ltac kill := first [reflexivity | apply N.eqb_neq; lia | apply N.ltb_ge; lia | apply N.ltb_lt; lia | apply N.leb_gt; lia | apply N.leb_le; lia
  | apply Bool.negb_true_iff; apply N.eqb_neq; lia].

Lemma hash_char c p e m g l0 l2 l4 l6 l7 l8 l9 l10 l11 l12 l13 (Q : outcome -> Prop) is :
  c < 0x110000 -> bytes_at m p (utf8 c) -> p + len_utf8 c <= e -> e <= 2686976 ->
  (forall l3 l10 l11 l12 l13, wp demo_env is (St [l0; p + len_utf8 c; l2; l3; l4; e; l6; l7; l8; c; l10; l11; l12; l13] g m []) Q) ->
  wp demo_env (IBlock f5_5 :: is) (St [l0; p; l2; p + 1; l4; e; l6; l7; l8; l9; l10; l11; l12; l13] g m []) Q.
Proof.
  intros Hc Hb He Hl K. unfold utf8 in Hb. unfold len_utf8 in *.
  apply wp_block. unfold f5_5. apply wp_block. unfold f5_6. apply wp_block. crun.
  destruct (N.ltb_spec c 128) as [C1|C1].
  { assert (B0 := bytes_nth m p _ 0 p Hb ltac:(cbn; lia) ltac:(lia)). cbn [nth] in B0.
    eapply wp_load8s; [rewrite N.add_0_r; rewrite load8s_low by lia; exact B0|lia|]. run.
    apply wp_taken; [apply signed_low; lia|]. next. crun. apply wp_nil. next. crun.
    apply wp_nil. next. rewrite land255, N.mod_small by lia. apply K. }
  destruct (N.ltb_spec c 2048) as [C2|C2].
  { assert (L : c / 64 < 32) by (apply N.div_lt_upper_bound; lia). assert (M : c mod 64 < 64) by (apply N.mod_lt; discriminate).
    assert (B0 := bytes_nth m p _ 0 p Hb ltac:(cbn; lia) ltac:(lia)). assert (B1 := bytes_nth m p _ 1 (p + 1) Hb ltac:(cbn; lia) ltac:(lia)). cbn [nth] in B0, B1.
    eapply wp_load8s; [rewrite N.add_0_r; rewrite load8s_high by lia; rewrite B0; reflexivity|lia|]. run.
    apply wp_not_taken; [apply signed_high; lia|]. apply wp_block. unfold f5_8. apply wp_block. crun.
    apply wp_taken; [kill|]. next. crun.
    eapply wp_load8u; [exact B1|lia|]. run. apply wp_nil. next. crun.
    apply wp_block. crun. rewrite low_from_high by lia. apply wp_not_taken; [kill|]. run. apply wp_br. next. 
    rewrite cont_byte by exact M. rewrite (byte_from_high _ 6 (c / 64)) by lia. rewrite join2 by exact C2.
    rewrite (add32_small p 2) by (unfold W; lia). crun. apply wp_nil. next. apply K. }
  assert (M : c mod 64 < 64) by (apply N.mod_lt; discriminate). assert (M1 : c / 64 mod 64 < 64) by (apply N.mod_lt; discriminate).
  destruct (N.ltb_spec c 65536) as [C3|C3].
  { assert (L : c / 4096 < 16) by (apply N.div_lt_upper_bound; lia).
    assert (B0 := bytes_nth m p _ 0 p Hb ltac:(cbn; lia) ltac:(lia)). assert (B1 := bytes_nth m p _ 1 (p + 1) Hb ltac:(cbn; lia) ltac:(lia)).
    assert (B2 := bytes_nth m p _ 2 (p + 2) Hb ltac:(cbn; lia) ltac:(lia)). cbn [nth] in B0, B1, B2.
    eapply wp_load8s; [rewrite N.add_0_r; rewrite load8s_high by lia; rewrite B0; reflexivity|lia|]. run.
    apply wp_not_taken; [apply signed_high; lia|]. apply wp_block. unfold f5_8. apply wp_block. crun.
    apply wp_taken; [kill|]. next. crun.
    eapply wp_load8u; [exact B1|lia|]. run. apply wp_nil. next. crun.
    apply wp_block. crun. rewrite low_from_high by lia. apply wp_taken; [kill|]. next. unfold f5_13.
    rewrite (add32_small p 2) by (unfold W; lia).
    apply wp_block. unfold f5_14. apply wp_block. crun. apply wp_taken; [kill|]. next. crun.
    eapply wp_load8u; [rewrite N.add_0_r; exact B2|lia|]. run. apply wp_nil. next. crun.
    rewrite (add32_small (p + 2) 1) by (unfold W; lia). 
    apply wp_block. crun. apply wp_not_taken; [kill|]. run. apply wp_br. next.
    rewrite !cont_byte by assumption. rewrite (byte_from_high _ 7 (c / 4096)) by lia. rewrite join3 by exact C3.
    replace (p + 2 + 1) with (p + 3) by lia. crun. apply wp_nil. next. apply K. }
  { assert (L : c / 262144 < 5) by (apply N.div_lt_upper_bound; lia). assert (M2 : c / 4096 mod 64 < 64) by (apply N.mod_lt; discriminate).
    assert (B0 := bytes_nth m p _ 0 p Hb ltac:(cbn; lia) ltac:(lia)). assert (B1 := bytes_nth m p _ 1 (p + 1) Hb ltac:(cbn; lia) ltac:(lia)).
    assert (B2 := bytes_nth m p _ 2 (p + 2) Hb ltac:(cbn; lia) ltac:(lia)). assert (B3 := bytes_nth m p _ 3 (p + 3) Hb ltac:(cbn; lia) ltac:(lia)). cbn [nth] in B0, B1, B2, B3.
    eapply wp_load8s; [rewrite N.add_0_r; rewrite load8s_high by lia; rewrite B0; reflexivity|lia|]. run.
    apply wp_not_taken; [apply signed_high; lia|]. apply wp_block. unfold f5_8. apply wp_block. crun.
    apply wp_taken; [kill|]. next. crun.
    eapply wp_load8u; [exact B1|lia|]. run. apply wp_nil. next. crun.
    apply wp_block. crun. rewrite low_from_high by lia. apply wp_taken; [kill|]. next. unfold f5_13.
    rewrite (add32_small p 2) by (unfold W; lia).
    apply wp_block. unfold f5_14. apply wp_block. crun. apply wp_taken; [kill|]. next. crun.
    eapply wp_load8u; [rewrite N.add_0_r; exact B2|lia|]. run. apply wp_nil. next. crun.
    rewrite (add32_small (p + 2) 1) by (unfold W; lia). replace (p + 2 + 1) with (p + 3) by lia.
    apply wp_block. crun. apply wp_taken; [kill|]. next. unfold f5_19.
    apply wp_block. unfold f5_20. apply wp_block. crun. apply wp_taken; [kill|]. next. crun.
    eapply wp_load8u; [rewrite N.add_0_r; exact B3|lia|]. run. apply wp_nil. next. crun.
    rewrite !cont_byte by assumption. rewrite (byte_from_high _ 7 (16 + c / 262144)) by lia. rewrite join4 by exact Hc.
    apply wp_taken; [kill|]. next.
    rewrite (add32_small (p + 3) 1) by (unfold W; lia). replace (p + 3 + 1) with (p + 4) by lia. apply K. }
Qed.

(** ** Mixing *)
Lemma mul32_wmul a b : mul32 a b = wmul32 a b. Proof. unfold wmul32. rewrite w32_mod. reflexivity. Qed.
Lemma add32_wadd a b : add32 a b = wadd32 a b. Proof. unfold wadd32. rewrite w32_mod. reflexivity. Qed.
Lemma irotl_rotl a k : k < 32 -> irotl a k = rotl32 a k.
Proof. intros H. unfold irotl, rotl32. rewrite (N.mod_small k 32) by exact H. rewrite w32_mod. reflexivity. Qed.
Lemma mix_code h c :
  add32 (mul32 (irotl (N.lxor (mul32 (irotl (mul32 c 3432918353) 15) 461845907) h) 13) 5) 3864292196 = mix h c.
Proof.
  unfold mix, scramble. rewrite add32_wadd, !mul32_wmul. rewrite !irotl_rotl by reflexivity. rewrite (N.lxor_comm h). reflexivity.
Qed.
Lemma avalanche_code h :
  N.lxor (ishr (mul32 (N.lxor (ishr (mul32 (N.lxor (ishr h 16) h) 2246822507) 13) (mul32 (N.lxor (ishr h 16) h) 2246822507)) 3266489909) 16)
         (mul32 (N.lxor (ishr (mul32 (N.lxor (ishr h 16) h) 2246822507) 13) (mul32 (N.lxor (ishr h 16) h) 2246822507)) 3266489909) = avalanche h.
Proof.
  unfold avalanche, ishr. change (16 mod 32) with 16. change (13 mod 32) with 13. rewrite !mul32_wmul.
  rewrite (N.lxor_comm (N.shiftr h 16) h). 
  set (a := wmul32 (N.lxor h (N.shiftr h 16)) 2246822507). rewrite (N.lxor_comm (N.shiftr a 13) a).
  set (b := wmul32 (N.lxor a (N.shiftr a 13)) 3266489909). apply N.lxor_comm.
Qed.

Lemma countdown x : x < W -> add32 ((x + 1) mod W) 4294967295 = x.
Proof.
  intros H. unfold add32. rewrite N.add_mod_idemp_l by discriminate. replace (x + 1 + 4294967295) with (x + 1 * W) by (unfold W; lia).
  rewrite N.mod_add by discriminate. apply N.mod_small. exact H.
Qed.
Lemma advance i p k : i + k < W -> p < W -> add32 (sub32 i p) (p + k) = i + k.
Proof.
  intros H K. unfold add32, sub32. rewrite N.add_mod_idemp_l by discriminate. replace (W + i - p + (p + k)) with (i + k + 1 * W) by lia.
  rewrite N.mod_add by discriminate. apply N.mod_small. exact H.
Qed.

Lemma str_at_cons m p c s : str_at m p (c :: s) -> bytes_at m p (utf8 c) /\ str_at m (p + len_utf8 c) s.
Proof.
  unfold str_at. cbn [flat_map]. intros H. rewrite <- utf8_length. split; intros i Hi.
  - rewrite H by (rewrite app_length; lia). apply app_nth1. exact Hi.
  - replace (p + N.of_nat (length (utf8 c)) + N.of_nat i) with (p + N.of_nat (length (utf8 c) + i)) by lia.
    rewrite H by (rewrite app_length; lia). rewrite app_nth2 by lia. f_equal. lia.
Qed.

Definition chars (s : str) : Prop := Forall (fun c => c < 0x110000) s.
Lemma len_utf8_pos c : 0 < len_utf8 c.
Proof. unfold len_utf8. destruct (c <? 128); [lia|]. destruct (c <? 2048); [lia|]. destruct (c <? 65536); lia. Qed.

Lemma hash_loop s : forall c p i h n limit m g l0 l2 l3 l9 l10 l11 l12 l13 (Q : outcome -> Prop),
  chars (c :: s) -> str_at m p (c :: s) -> p + str_len (c :: s) <= 2686976 -> i <= p -> n <= limit -> limit < W -> h < W -> l2 = i + str_len (c :: s) ->
  (forall l1 l2' h' l3 l5 l6 l7 l8 l9 l10 l11 l12 l13, h' < W -> gc_loop (char_indices_from i (c :: s)) h n limit l2 = (h', l2') ->
     Q (Branch 0 (St [l0; l1; l2'; l3; h'; l5; l6; l7; l8; l9; l10; l11; l12; l13] g m [])) /\
     Q (Done (St [l0; l1; l2'; l3; h'; l5; l6; l7; l8; l9; l10; l11; l12; l13] g m []))) ->
  wp demo_env [ILoop f5_4] (St [l0; p; l2; l3; h; p + str_len (c :: s); (limit - n + 1) mod W; i; p; l9; l10; l11; l12; l13] g m []) Q.
Proof.
  induction s as [|d s IH]; intros c p i h n limit m g l0 l2 l3 l9 l10 l11 l12 l13 Q Hc Hs Hp Hi Hn Hl Hh H2 HQ;
    destruct (str_at_cons m p c _ Hs) as (Hb & Hs'); inversion Hc as [|? ? Hc0 Hc1]; subst l2; cbn [str_len] in *; assert (Lp := len_utf8_pos c).
  - apply wp_loop_step. crun. rewrite (add32_small p 1) by (unfold W; lia).
    apply (hash_char c p); try assumption; try lia. clear l3 l9 l10 l11 l12 l13. intros l3 l10 l11 l12 l13. unfold f5_26.
    apply wp_block. crun. rewrite countdown by lia. cbn [gc_loop char_indices_from] in HQ.
    apply wp_br_if; intros Z.
    + next. crun. rewrite advance by (unfold W; lia). rewrite mix_code. rewrite N.add_0_r.
      apply wp_not_taken; [apply Bool.negb_false_iff; apply N.eqb_refl|]. apply wp_nil. next. apply wp_nil.
      destruct (N.leb_spec limit n) as [X|X]; [lia|]. apply HQ; [|rewrite N.add_0_r; reflexivity].
      unfold mix. rewrite <- add32_wadd. apply add32_lt.
    + assert (limit = n) by lia. run. apply wp_br. next. destruct (N.leb_spec limit n) as [X|X]; [|lia]. apply HQ; [exact Hh|reflexivity].
  - apply wp_loop_step. crun. rewrite (add32_small p 1) by (unfold W; lia).
    apply (hash_char c p); try assumption; try lia. clear l3 l9 l10 l11 l12 l13. intros l3 l10 l11 l12 l13. unfold f5_26.
    apply wp_block. crun. rewrite countdown by lia.
    assert (Ld := len_utf8_pos d).
    apply wp_br_if; intros Z.
    + next. crun. rewrite advance by (unfold W; lia). rewrite mix_code.
      apply wp_taken; [kill|]. next.
      replace (limit - n) with ((limit - (n + 1) + 1) mod W) by (rewrite N.mod_small by (unfold W in *; lia); lia).
      rewrite (N.add_assoc p).
      apply (IH d (p + len_utf8 c) (i + len_utf8 c) (mix h c) (n + 1) limit); try assumption; cbn [str_len]; try lia.
      * unfold mix. rewrite <- add32_wadd. apply add32_lt.
      * intros k1 k2 h' k3 k5 k6 k7 k8 k9 k10 k11 k12 k13 Hh' E. apply HQ; [exact Hh'|].
        change (char_indices_from i (c :: d :: s)) with ((i, c) :: char_indices_from (i + len_utf8 c) (d :: s)). cbn [gc_loop].
        destruct (N.leb_spec limit n) as [X|X]; [lia|]. exact E.
    + assert (limit = n) by lia. run. apply wp_br. next. cbn [gc_loop char_indices_from] in HQ.
      destruct (N.leb_spec limit n) as [X|X]; [|lia]. apply HQ; [exact Hh|reflexivity].
Qed.

Lemma gc_bytes limit s : forall i h n b, i + str_len s <= b -> snd (gc_loop (char_indices_from i s) h n limit b) <= b.
Proof.
  induction s as [|c s IH]; intros i h n b H; [cbn; lia|]. cbn [char_indices_from gc_loop str_len] in *.
  destruct (limit <=? n); [cbn; lia|]. apply IH. lia.
Qed.

(** The function: the hash at [ret], the number of bytes it covers after it *)
Theorem hash_compiled m g ret p limit s :
  chars s -> str_at m p s -> p + str_len s <= 2686976 -> ret + 8 <= 2686976 -> limit < W ->
  fwp demo_env 5 [ret; p; str_len s; limit] g m (fun r =>
    r = Some ([], g, store32 (store32 m (ret + 4) (snd (grapheme_cluster s 0 limit))) ret (fst (grapheme_cluster s 0 limit)))).
Proof.
  intros Hc Hs Hp Hr Hl.
  match goal with |- fwp _ _ _ _ _ ?r => set (R := r) end.
  eapply fwp_intro; [reflexivity|reflexivity|]. cbn [fn_body fn_results]. unfold enter. cbn [fn_locals repeat app].
  unfold f5. apply wp_block.
  assert (K : forall h b l1 l3 l5 l6 l7 l8 l9 l10 l11 l12 l13, gc_loop (char_indices s) 0 0 limit (str_len s) = (h, b) ->
    wp demo_env f5_29 (St [ret; l1; b; l3; h; l5; l6; l7; l8; l9; l10; l11; l12; l13] g m []) (finish 0 R)).
  { intros h b l1 l3 l5 l6 l7 l8 l9 l10 l11 l12 l13 E. crun. eapply wp_store; [reflexivity|lia|]. run.
    eapply wp_store; [apply N.add_0_r|lia|]. run. apply wp_nil. next. unfold R, grapheme_cluster. rewrite E. cbn [fst snd firstn].
    assert (B := gc_bytes limit s 0 0 0 (str_len s)). unfold char_indices in E. rewrite E in B. cbn [snd] in B. rewrite (w32_small b) by (unfold W in *; lia).
    rewrite avalanche_code. rewrite (N.lxor_comm b h). reflexivity. }
  unfold f5_1. apply wp_block. crun.
  destruct s as [|c s].
  - cbn [str_len]. apply wp_br_if; intros Z; [elim Z; reflexivity|]. run. apply wp_br. next. apply K. reflexivity.
  - assert (Lp := len_utf8_pos c). apply wp_br_if; intros Z; [|cbn [str_len] in Z; lia]. next. crun. rewrite (add32_small p) by (unfold W; lia).
    replace (add32 limit 1) with ((limit - 0 + 1) mod W) by (rewrite N.sub_0_r; reflexivity).
    apply (hash_loop s c p 0 0 0 limit); try assumption; try reflexivity; try lia.
    intros l1 b h l3 l5 l6 l7 l8 l9 l10 l11 l12 l13 Hh E. unfold char_indices in K. split; next; apply K; exact E.
Qed.
