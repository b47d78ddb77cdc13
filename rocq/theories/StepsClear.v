(** * Proofs: clear_region when it panics; painting twice, whatever happens *)
From Coq Require Import ZArith.
From Verif Require Import PrimFacts Str Geom FontDefs Blit BlitSteps Spec FbFacts ClearProofs XorProofs StepsProofs.

Lemma each_mid m minx maxx y fb1 c : cfg_ok m -> minx < maxx <= 336 -> y < 536 -> is_frbuf fb1 ->
  exists fb2,
    each (minx / 32 + 1) (maxx / 32) (fun w => i <~ calc (uadd m (y * 11) w) ;; change_word i (fun _ => 0xffffffff)) (World fb1 c)
    = (World fb2 c, Ret tt) /\ is_frbuf fb2 /\
    forall X Y, X < 352 -> Y < 536 -> pixel fb2 X Y =
      pixel fb1 X Y || ((Y =? y) && ((32 * (minx / 32 + 1) <=? X) && (X <? 32 * (maxx / 32)))).
Proof.
  intros Hm Hx Hy Hfb1. pose proof (limit_ge m Hm) as HL.
  set (R := fun (w : N) (g : frbuf) => is_frbuf g /\
         forall X Y, X < 352 -> Y < 536 -> pixel g X Y =
           pixel fb1 X Y || ((Y =? y) && ((32 * (minx / 32 + 1) <=? X) && (X <? 32 * w)))).
  assert (Hmid : exists fb2,
     for_range (minx / 32 + 1) (maxx / 32)
       (fun w fb => i <- uadd m (y * 11) w;; aset fb i 0xffffffff) fb1 = Ret fb2 /\ R (maxx / 32) fb2).
  { destruct (N.le_gt_cases (minx / 32 + 1) (maxx / 32)) as [Hle|Hgt].
    - apply (for_range_inv R (fun w fb => i <- uadd m (y * 11) w;; aset fb i 0xffffffff)
                  (minx / 32 + 1) (maxx / 32) fb1 Hle).
      + split; [assumption|]. intros X Y HX HY.
        replace ((32 * (minx / 32 + 1) <=? X) && (X <? 32 * (minx / 32 + 1))) with false by lia.
        rewrite andb_false_r, orb_false_r; reflexivity.
      + intros w g Hw [Hg Hpx].
        exists (upd g (N.to_nat (y * 11 + w)) 0xffffffff). split; [|split].
        * rewrite uadd_ok by lia. cbn [bind]. apply fb_aset; [assumption|lia].
        * apply upd_frbuf; [assumption|reflexivity].
        * intros X Y HX HY. rewrite pixel_upd by (assumption || lia).
          destruct (N.eqb_spec Y y) as [->|E1]; simpl.
          -- destruct (N.eqb_spec (X / 32) w) as [E2|E2].
             ++ change 0xffffffff with u32max; rewrite u32max_testbit.
                replace (X mod 32 <? 32) with true by lia.
                replace ((32 * (minx / 32 + 1) <=? X) && (X <? 32 * (w + 1))) with true by lia.
                rewrite orb_true_r; reflexivity.
             ++ rewrite Hpx by assumption. rewrite N.eqb_refl; simpl. f_equal. lia.
          -- rewrite Hpx by assumption. apply N.eqb_neq in E1; rewrite E1; reflexivity.
    - exists fb1. split; [apply for_range_empty; lia|split; [assumption|]].
      intros X Y HX HY.
      replace ((32 * (minx / 32 + 1) <=? X) && (X <? 32 * (maxx / 32))) with false by lia.
      rewrite andb_false_r, orb_false_r; reflexivity. }
  destruct Hmid as (fb2 & E & HR). exists fb2. split; [|exact HR].
  apply erase_ret. rewrite (erase_each _ _ _ (fun w fb => i <- uadd m (y * 11) w;; aset fb i 0xffffffff)).
  - etransitivity; [exact (f_equal (fun r => bind r (fun fb' => Ret (fb', c, tt))) E)|reflexivity].
  - intros i g. erase_step. apply bind_ext; intros j. erase_step. apply aset_get.
Qed.

Lemma clear_row_stop m minx maxx y fb c :
  cfg_ok m -> minx < maxx <= 336 -> y < 536 -> is_frbuf fb ->
  ovf m = true -> clear_shift_overflow minx maxx = true ->
  exists fb', clear_row_steps m (minx / 32) (maxx / 32) (32 - minx mod 32) (maxx mod 32) y (World fb c) = (World fb' c, Panic) /\
    is_frbuf fb' /\
    forall X Y, X < 352 -> Y < 536 -> pixel fb' X Y = pixel fb X Y || ((Y =? y) && ((minx <=? X) && (X <? maxx))).
Proof.
  intros Hm Hx Hy Hfb Ho Hs. pose proof (limit_ge m Hm) as HL.
  unfold clear_shift_overflow in Hs; rewrite andb_true_iff, N.eqb_eq, N.ltb_lt in Hs. destruct Hs as [Hs1 Hs2].
  unfold clear_row_steps, WORDS_PER_LINE.
  rewrite umul_ok by lia. rewrite run_calc. rewrite usub_ok by lia. rewrite run_calc.
  rewrite shl32_ok by lia. rewrite run_calc. rewrite uadd_ok by lia. rewrite run_calc.
  rewrite (run_then _ _ _ _ _ (change_ok (y * 11 + minx / 32) _ fb c Hfb ltac:(unfold FRAME_BUF_SIZE, WORDS_PER_LINE, LINES; lia))).
  set (v1 := N.lor _ _). set (fb1 := upd fb _ v1).
  assert (Hv1 : v1 < 2 ^ 32).
  { apply lor_lt; [apply fb_word_lt; [assumption|lia]|apply w32_lt]. }
  assert (Hb1 : forall i, i < 32 -> N.testbit v1 i = pixel fb (32 * (minx / 32) + i) y || (minx mod 32 <=? i)).
  { intros i Hi. unfold v1. rewrite N.lor_spec. f_equal.
    - unfold pixel, WORDS_PER_LINE.
      replace ((32 * (minx / 32) + i) / 32) with (minx / 32) by lia.
      replace ((32 * (minx / 32) + i) mod 32) with i by lia. reflexivity.
    - rewrite clear_row_low_mask by lia. lia. }
  assert (Hfb1 : is_frbuf fb1) by (apply upd_frbuf; assumption).
  assert (Hpx1 : forall X Y, X < 352 -> Y < 536 -> pixel fb1 X Y =
            pixel fb X Y || ((Y =? y) && ((minx <=? X) && (X <? 32 * (minx / 32) + 32)))).
  { intros X Y HX HY. unfold fb1. rewrite pixel_upd by (assumption || lia).
    destruct (N.eqb_spec Y y) as [->|E1]; simpl; [|rewrite orb_false_r; reflexivity].
    destruct (N.eqb_spec (X / 32) (minx / 32)) as [E2|E2].
    - rewrite Hb1 by lia. replace (32 * (minx / 32) + X mod 32) with X by lia. f_equal. lia.
    - destruct (pixel fb X y); [reflexivity|]. symmetry. apply not_true_is_false; rewrite ?andb_true_iff, ?N.ltb_lt, ?N.leb_le; lia. }
  clearbody fb1. clear v1 Hv1 Hb1.
  destruct (each_mid m minx maxx y fb1 c Hm Hx Hy Hfb1) as (fb2 & E2 & Hfb2 & Hpx2).
  rewrite (run_then _ _ _ _ _ E2). replace (minx / 32 <? maxx / 32) with true by lia.
  rewrite usub_ok by lia. rewrite run_calc.
  exists fb2. split; [|split; [assumption|]].
  - apply run_panic. unfold shr32. rewrite Hs1, Ho. reflexivity.
  - intros X Y HX HY. rewrite Hpx2, Hpx1, <- orb_assoc by assumption. f_equal.
    destruct (Y =? y); [cbn [andb]|reflexivity]. lia.
Qed.

Lemma clear_stop m fb clip c : cfg_ok m -> is_frbuf fb -> clear_region m fb clip = Panic ->
  exists fb', clear_region_steps m clip (World fb c) = (World fb' c, Panic) /\ is_frbuf fb' /\
    forall x y, x < STORED_WIDTH -> y < LINES ->
      pixel fb' x y = pixel fb x y || in_rect (px (cmin clip)) (py (cmin clip)) (px (cmax clip)) (py (cmin clip) + 1) x y.
Proof.
  intros Hm Hfb E. apply (clear_cases m fb clip Hm Hfb) in E. destruct E as (Hc & Ho & H1 & H2).
  unfold clear_region_steps. rewrite (clear_guard clip Hc). destruct Hc as [Hx Hy]. unfold WIDTH, LINES in *.
  cbv zeta. rewrite !uand1f_mod, !ushr5_div. rewrite usub_ok by lia. rewrite run_calc. unfold each.
  destruct (N.to_nat (py (cmax clip) - py (cmin clip))) as [|n] eqn:En; [lia|]. cbn [each_n].
  destruct (clear_row_stop m (px (cmin clip)) (px (cmax clip)) (py (cmin clip)) fb c Hm Hx ltac:(lia) Hfb Ho) as (fb' & E & Hfb' & Hp).
  { unfold clear_shift_overflow. rewrite H1. apply andb_true_iff. split; [reflexivity|]. apply N.ltb_lt; exact H2. }
  exists fb'. split; [exact (run_panic _ _ _ _ E)|]. split; [assumption|]. intros x y Hx' Hy'. unfold STORED_WIDTH in *.
  rewrite Hp by assumption. f_equal. unfold in_rect. destruct (N.eqb_spec y (py (cmin clip))) as [->|Ne]; lia.
Qed.

(** ** Painting twice *)
Definition toggles {A} (e : act A) : Prop :=
  forall c, exists d c' r, flen d /\ forall fb, flen fb -> e (World fb c) = (World (bxor fb d) c', r).
Lemma toggles_still {A} (e : act A) : (forall c, exists c' r, forall fb, e (World fb c) = (World fb c', r)) -> toggles e.
Proof.
  intros H c. destruct (H c) as (c' & r & E). exists zeros, c', r. split; [exact zeros_flen|].
  intros fb L. rewrite E, bxor_zeros' by assumption. reflexivity.
Qed.
Lemma toggles_calc {A} (r : res A) : toggles (calc r).
Proof. apply toggles_still. intros c. exists c, r. reflexivity. Qed.
Lemma toggles_get : toggles get_cursor.
Proof. apply toggles_still. intros c. exists c, (Ret c). reflexivity. Qed.
Lemma toggles_x x : toggles (set_x x).
Proof. apply toggles_still. intros c. exists (Cursor (Pt x (cy c)) (line_height c)), (Ret tt). reflexivity. Qed.
Lemma toggles_y x : toggles (set_y x).
Proof. apply toggles_still. intros c. exists (Cursor (Pt (cx c) x) (line_height c)), (Ret tt). reflexivity. Qed.
Lemma toggles_h x : toggles (set_height x).
Proof. apply toggles_still. intros c. exists (Cursor (cpt c) x), (Ret tt). reflexivity. Qed.
Lemma toggles_skip : toggles skip.
Proof. apply toggles_calc. Qed.
Lemma toggles_then {A B} (e : act A) (k : A -> act B) : toggles e -> (forall a, toggles (k a)) -> toggles (andthen e k).
Proof.
  intros He Hk c. destruct (He c) as (d & c' & [a|] & L & E).
  - destruct (Hk a c') as (d2 & c2 & r2 & L2 & E2). exists (bxor d d2), c2, r2. split; [apply bxor_flen; assumption|].
    intros fb Lf. unfold andthen. rewrite E by assumption. rewrite E2 by (apply bxor_flen; assumption). rewrite bxor_assoc. reflexivity.
  - exists d, c', Panic. split; [assumption|]. intros fb Lf. unfold andthen. rewrite E by assumption. reflexivity.
Qed.
Lemma toggles_word i p : toggles (change_word i (fun v => N.lxor v p)).
Proof.
  intros c. destruct (N.lt_ge_cases i FRAME_BUF_SIZE) as [Hi|Hi].
  - exists (upd zeros (N.to_nat i) p), c, (Ret tt). split; [unfold flen; rewrite upd_length; exact zeros_flen|].
    intros fb L. unfold flen in L. unfold change_word; cbn [w_fb w_cur]. rewrite (@List.nth_error_nth' N fb (N.to_nat i) 0) by lia.
    unfold zeros. rewrite bxor_single by lia. reflexivity.
  - exists zeros, c, Panic. split; [exact zeros_flen|]. intros fb L. rewrite bxor_zeros' by assumption. unfold flen in L.
    unfold change_word; cbn [w_fb w_cur]. rewrite (proj2 (nth_error_None fb (N.to_nat i))) by lia. reflexivity.
Qed.
Lemma toggles_each lo hi body : (forall i, toggles (body i)) -> toggles (each lo hi body).
Proof.
  intros H. unfold each. generalize (N.to_nat (hi - lo)). intros n. revert lo. induction n as [|n IH]; intros i; cbn [each_n]; [apply toggles_skip|].
  apply toggles_then; [apply H|]. intros _. apply IH.
Qed.
Ltac toggling :=
  repeat first [apply toggles_calc | apply toggles_get | apply toggles_x | apply toggles_y | apply toggles_h | apply toggles_skip
               | apply toggles_word | apply toggles_each; intros ? | apply toggles_then; [|intros ?]
               | match goal with |- toggles (if ?b then _ else _) => destruct b end ].
Lemma toggles_newline m F clip : toggles (newline_steps m F clip).
Proof. unfold newline_steps. toggling. Qed.
Lemma toggles_row m f clip off w lo hi a y0 y : toggles (xor_row_steps m f clip off w lo hi a y0 y).
Proof. unfold xor_row_steps. toggling. Qed.
Lemma toggles_char m F clip s gs : toggles (xor_char_steps m F clip s gs).
Proof.
  unfold xor_char_steps. cbv zeta. destruct (_ || _); [apply toggles_calc|]. apply toggles_then; [apply toggles_calc|].
  intros [[off n]|]; [|apply toggles_calc]. toggling; (apply toggles_newline || apply toggles_row || toggling).
Qed.
Lemma toggles_step m F clip st s : toggles (paint_step_steps m F clip st s).
Proof.
  assert (G : toggles (r <~ xor_char_steps m F clip s Emoji ;;
      match r with
      | Some n => calc (slice_from s n)
      | None =>
          r <~ xor_char_steps m F clip s (latin_set st) ;;
          match r with
          | Some n => calc (slice_from s n)
          | None =>
              r <~ xor_char_steps m F clip s Hanzi ;;
              match r with
              | Some n => calc (slice_from s n)
              | None =>
                  r <~ xor_char_steps m F clip replacement (latin_set st) ;;
                  match r with
                  | Some _ =>
                      match nth_error (char_indices s) 1 with
                      | Some (i, _) => calc (slice_from s i)
                      | None => calc (Ret s)
                      end
                  | None => calc (Ret s)
                  end
              end
          end
      end)).
  { apply toggles_then; [apply toggles_char|intros [n|]; [apply toggles_calc|]].
    apply toggles_then; [apply toggles_char|intros [n|]; [apply toggles_calc|]].
    apply toggles_then; [apply toggles_char|intros [n|]; [apply toggles_calc|]].
    apply toggles_then; [apply toggles_char|intros [n|]; [|apply toggles_calc]].
    destruct (nth_error (char_indices s) 1) as [[i u]|]; apply toggles_calc. }
  unfold paint_step_steps. destruct s as [|ch t]; [exact G|]. destruct (N.eq_dec ch 10) as [->|Hn].
  - apply toggles_then; [apply toggles_newline|intros _; apply toggles_calc].
  - assert (X : forall A (a b : A), match ch with 10 => a | _ => b end = b).
    { intros A a b. destruct ch as [|p]; [reflexivity|]. do 4 (destruct p as [p|p|]; try reflexivity). exfalso; apply Hn; reflexivity. }
    rewrite X. exact G.
Qed.
Lemma toggles_loop n m F clip st : forall s, toggles (paint_loop_steps n m F clip st s).
Proof.
  induction n as [|n IH]; intros s; cbn [paint_loop_steps]; [apply toggles_skip|]. destruct s; [apply toggles_skip|].
  apply toggles_then; [apply toggles_step|]. intros rest. apply IH.
Qed.

Lemma paint_twice m F clip st s fb c w r : N.of_nat (length fb) = FRAME_BUF_SIZE ->
  paint_str_steps m F clip st s (World fb c) = (w, r) ->
  paint_str_steps m F clip st s (World (w_fb w) c) = (World fb (w_cur w), r).
Proof.
  intros L E. destruct (toggles_loop (N.to_nat (str_len s)) m F clip st s c) as (d & c' & r' & Ld & H). unfold paint_str_steps in *.
  rewrite H in E by exact L. injection E as <- <-. cbn [w_fb w_cur]. rewrite H by (apply bxor_flen; assumption).
  rewrite bxor_cancel; [reflexivity|]. unfold flen in *. lia.
Qed.
Lemma paint_same m F clip st s fb1 fb2 c : N.of_nat (length fb1) = FRAME_BUF_SIZE -> N.of_nat (length fb2) = FRAME_BUF_SIZE ->
  let '(w1, r1) := paint_str_steps m F clip st s (World fb1 c) in
  let '(w2, r2) := paint_str_steps m F clip st s (World fb2 c) in
  r1 = r2 /\ w_cur w1 = w_cur w2 /\
  forall i, N.lxor (nth i fb1 0) (nth i (w_fb w1) 0) = N.lxor (nth i fb2 0) (nth i (w_fb w2) 0).
Proof.
  intros L1 L2. destruct (toggles_loop (N.to_nat (str_len s)) m F clip st s c) as (d & c' & r & Ld & H). unfold paint_str_steps.
  rewrite (H fb1 L1), (H fb2 L2). split; [reflexivity|]. split; [reflexivity|]. intros i. cbn [w_fb]. unfold flen in Ld.
  rewrite !nth_bxor by lia. rewrite <- !N.lxor_assoc, !N.lxor_nilpotent. reflexivity.
Qed.
