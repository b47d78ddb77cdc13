(** * clear_region: exact effect on pixels *)
From Coq Require Import ZArith.
From Verif Require Import FbFacts Blit.

(** First column at or right of min.x that clear_region leaves alone. *)
Definition clear_right (minx maxx : N) : N :=
  if minx / 32 =? maxx / 32 then 32 * (minx / 32) + 32
  else if maxx mod 32 =? 0 then maxx + 32 else maxx.

(** With overflow checks on, clear_region panics on exactly these on-screen
    clips (blit.rs:35 shifts a u32 right by 32). *)
Definition clear_shift_overflow (minx maxx : N) : bool :=
  (maxx mod 32 =? 0) && (minx / 32 <? maxx / 32).

Lemma b2f (a b : bool) : (a = true <-> b = true) -> a = b.
Proof. destruct a, b; intros [H1 H2]; auto; symmetry; auto. Qed.

Lemma clear_row_low_mask k i :
  k < 32 -> N.testbit (w32 (N.shiftl 0xffffffff k)) i = (k <=? i) && (i <? 32).
Proof.
  intros Hk; rewrite w32_testbit, shiftl_testbit.
  change 0xffffffff with u32max; rewrite u32max_testbit.
  apply b2f; rewrite ?andb_true_iff, ?N.ltb_lt, ?N.leb_le; lia.
Qed.

Lemma clear_row_high_mask k i :
  N.testbit (N.shiftr 0xffffffff k) i = (i + k <? 32).
Proof.
  rewrite N.shiftr_spec'; change 0xffffffff with u32max; apply u32max_testbit.
Qed.

Section Row.
  Context (m : cfg) (Hm : cfg_ok m) (minx maxx y : N).
  Hypothesis Hx : minx < maxx <= 336.
  Hypothesis Hy : y < 536.
  Hypothesis Hp : ovf m = true -> clear_shift_overflow minx maxx = false.

  Lemma clear_row_spec fb :
    is_frbuf fb ->
    exists fb',
      clear_row m (minx / 32) (maxx / 32) (32 - minx mod 32) (maxx mod 32) y fb = Ret fb' /\
      is_frbuf fb' /\
      forall X Y, X < 352 -> Y < 536 ->
        pixel fb' X Y = pixel fb X Y || ((Y =? y) && ((minx <=? X) && (X <? clear_right minx maxx))).
  Proof.
    intros Hfb. pose proof (limit_ge m Hm) as HL.
    unfold clear_row, WORDS_PER_LINE.
    rewrite umul_ok by lia. cbn [bind].
    rewrite usub_ok by lia. cbn [bind].
    rewrite shl32_ok by lia. cbn [bind].
    rewrite uadd_ok by lia. cbn [bind].
    rewrite fb_aget by (assumption || lia). cbn [bind].
    set (v1 := N.lor _ _).
    rewrite fb_aset by (assumption || lia). cbn [bind].
    assert (Hv1 : v1 < 2 ^ 32).
    { apply lor_lt; [apply fb_word_lt; [assumption|lia]|apply w32_lt]. }
    assert (Hb1 : forall i, i < 32 -> N.testbit v1 i =
              pixel fb (32 * (minx / 32) + i) y || (minx mod 32 <=? i)).
    { intros i Hi. unfold v1. rewrite N.lor_spec. f_equal.
      - unfold pixel, WORDS_PER_LINE.
        replace ((32 * (minx / 32) + i) / 32) with (minx / 32) by lia.
        replace ((32 * (minx / 32) + i) mod 32) with i by lia. reflexivity.
      - rewrite clear_row_low_mask by lia.
        apply b2f; rewrite ?andb_true_iff, ?N.ltb_lt, ?N.leb_le; lia. }
    set (fb1 := upd fb _ v1).
    assert (Hfb1 : is_frbuf fb1) by (apply upd_frbuf; assumption).
    assert (Hpx1 : forall X Y, X < 352 -> Y < 536 -> pixel fb1 X Y =
              pixel fb X Y || ((Y =? y) && ((minx <=? X) && (X <? 32 * (minx / 32) + 32)))).
    { intros X Y HX HY. unfold fb1. rewrite pixel_upd by (assumption || lia).
      destruct (N.eqb_spec Y y) as [->|E1]; simpl; [|rewrite orb_false_r; reflexivity].
      destruct (N.eqb_spec (X / 32) (minx / 32)) as [E2|E2].
      - rewrite Hb1 by lia.
        replace (32 * (minx / 32) + X mod 32) with X by lia. f_equal.
        apply b2f; rewrite ?andb_true_iff, ?N.ltb_lt, ?N.leb_le; lia.
      - destruct (pixel fb X y); [reflexivity|]. symmetry.
        apply not_true_is_false; rewrite ?andb_true_iff, ?N.ltb_lt, ?N.leb_le; lia. }
    clearbody fb1. clear v1 Hv1 Hb1.
    (* middle words *)
    set (R := fun (w : N) (g : frbuf) => is_frbuf g /\
           forall X Y, X < 352 -> Y < 536 -> pixel g X Y =
             pixel fb1 X Y || ((Y =? y) && ((32 * (minx / 32 + 1) <=? X) && (X <? 32 * w)))).
    assert (Hmid : exists fb2,
       for_range (minx / 32 + 1) (maxx / 32)
         (fun w fb => i <- uadd m (y * 11) w;; aset fb i 0xffffffff) fb1 = Ret fb2 /\
       is_frbuf fb2 /\
       forall X Y, X < 352 -> Y < 536 -> pixel fb2 X Y =
         pixel fb1 X Y || ((Y =? y) && ((32 * (minx / 32 + 1) <=? X) && (X <? 32 * (maxx / 32))))).
    { destruct (N.le_gt_cases (minx / 32 + 1) (maxx / 32)) as [Hle|Hgt].
      - destruct (for_range_inv R (fun w fb => i <- uadd m (y * 11) w;; aset fb i 0xffffffff)
                    (minx / 32 + 1) (maxx / 32) fb1 Hle) as (fb2 & E & HR).
        + split; [assumption|]. intros X Y HX HY.
          replace ((32 * (minx / 32 + 1) <=? X) && (X <? 32 * (minx / 32 + 1))) with false
            by (symmetry; apply not_true_is_false; rewrite ?andb_true_iff, ?N.ltb_lt, ?N.leb_le; lia).
          rewrite andb_false_r, orb_false_r; reflexivity.
        + intros w g Hw [Hg Hpx].
          exists (upd g (N.to_nat (y * 11 + w)) 0xffffffff). split; [|split].
          * rewrite uadd_ok by lia. cbn [bind]. apply fb_aset; [assumption|lia].
          * apply upd_frbuf; [assumption|reflexivity].
          * intros X Y HX HY. rewrite pixel_upd by (assumption || lia).
            destruct (N.eqb_spec Y y) as [->|E1]; simpl.
            -- destruct (N.eqb_spec (X / 32) w) as [E2|E2].
               ++ change 0xffffffff with u32max; rewrite u32max_testbit.
                  replace (X mod 32 <? 32) with true by (symmetry; apply N.ltb_lt; lia).
                  replace ((32 * (minx / 32 + 1) <=? X) && (X <? 32 * (w + 1))) with true
                    by (symmetry; rewrite ?andb_true_iff, ?N.ltb_lt, ?N.leb_le; lia).
                  rewrite orb_true_r; reflexivity.
               ++ rewrite Hpx by assumption. rewrite N.eqb_refl; simpl. f_equal.
                  apply b2f; rewrite ?andb_true_iff, ?N.ltb_lt, ?N.leb_le; lia.
            -- rewrite Hpx by assumption. apply N.eqb_neq in E1; rewrite E1; reflexivity.
        + exists fb2. split; [exact E|exact HR].
      - exists fb1. split; [apply for_range_empty; lia|split; [assumption|]].
        intros X Y HX HY.
        replace ((32 * (minx / 32 + 1) <=? X) && (X <? 32 * (maxx / 32))) with false
          by (symmetry; apply not_true_is_false; rewrite ?andb_true_iff, ?N.ltb_lt, ?N.leb_le; lia).
        rewrite andb_false_r, orb_false_r; reflexivity. }
    destruct Hmid as (fb2 & E2 & Hfb2 & Hpx2).
    rewrite E2; cbn [bind]; clear E2 R.
    destruct (N.ltb_spec (minx / 32) (maxx / 32)) as [Hlt|Hge].
    - rewrite usub_ok by lia. cbn [bind].
      (* the shift *)
      assert (Hsh : exists mask, shr32 m 0xffffffff (32 - maxx mod 32) = Ret mask /\
                 mask < 2 ^ 32 /\
                 forall i, i < 32 -> N.testbit mask i = ((maxx mod 32 =? 0) || (i <? maxx mod 32))).
      { unfold shr32. destruct (N.ltb_spec (32 - maxx mod 32) 32) as [Hs|Hs].
        - eexists; split; [reflexivity|split; [apply shiftr_lt; reflexivity|]].
          intros i Hi; rewrite clear_row_high_mask.
          apply b2f; rewrite ?orb_true_iff, ?N.ltb_lt, ?N.eqb_eq; lia.
        - destruct (ovf m) eqn:Eo.
          + specialize (Hp eq_refl). unfold clear_shift_overflow in Hp.
            apply andb_false_iff in Hp; rewrite N.eqb_neq, N.ltb_ge in Hp. lia.
          + eexists; split; [reflexivity|].
            replace (maxx mod 32) with 0 by lia. split; [reflexivity|].
            intros i Hi. change (uand1f (32 - 0)) with 0. rewrite N.shiftr_0_r.
            change 0xffffffff with u32max; rewrite u32max_testbit.
            apply N.ltb_lt in Hi; rewrite Hi; reflexivity. }
      destruct Hsh as (mask & Es & Hmask & Hmb).
      rewrite Es; cbn [bind]. rewrite uadd_ok by lia. cbn [bind].
      rewrite fb_aget by (assumption || lia). cbn [bind].
      set (v3 := N.lor _ mask).
      rewrite fb_aset by (assumption || lia).
      eexists; split; [reflexivity|split].
      + apply upd_frbuf; [assumption|]. apply lor_lt; [apply fb_word_lt; [assumption|lia]|assumption].
      + intros X Y HX HY. rewrite pixel_upd by (assumption || lia).
        destruct (N.eqb_spec Y y) as [->|E1]; simpl.
        * destruct (N.eqb_spec (X / 32) (maxx / 32)) as [E3|E3].
          -- unfold v3. rewrite N.lor_spec, Hmb by lia.
             replace (N.testbit _ (X mod 32)) with (pixel fb2 X y)
               by (unfold pixel, WORDS_PER_LINE; rewrite E3; reflexivity).
             rewrite Hpx2, Hpx1 by assumption. rewrite N.eqb_refl; simpl.
             destruct (pixel fb X y); [reflexivity|]; simpl.
             unfold clear_right.
             destruct (N.eqb_spec (minx / 32) (maxx / 32)); [lia|].
             destruct (N.eqb_spec (maxx mod 32) 0) as [E4|E4];
             apply b2f; rewrite ?orb_true_iff, ?andb_true_iff, ?N.ltb_lt, ?N.leb_le; lia.
          -- rewrite Hpx2, Hpx1 by assumption. rewrite N.eqb_refl; simpl.
             destruct (pixel fb X y); [reflexivity|]; simpl.
             unfold clear_right.
             destruct (N.eqb_spec (minx / 32) (maxx / 32)); [lia|].
             destruct (N.eqb_spec (maxx mod 32) 0) as [E4|E4];
             apply b2f; rewrite ?orb_true_iff, ?andb_true_iff, ?N.ltb_lt, ?N.leb_le; lia.
        * rewrite Hpx2, Hpx1 by assumption. apply N.eqb_neq in E1; rewrite E1; simpl.
          rewrite !orb_false_r; reflexivity.
    - eexists; split; [reflexivity|split; [assumption|]].
      intros X Y HX HY. rewrite Hpx2, Hpx1 by assumption.
      destruct (N.eqb_spec Y y) as [->|E1]; simpl; [|rewrite !orb_false_r; reflexivity].
      destruct (pixel fb X y); [reflexivity|]; simpl.
      unfold clear_right. destruct (N.eqb_spec (minx / 32) (maxx / 32)) as [E3|E3]; [|lia].
      apply b2f; rewrite ?orb_true_iff, ?andb_true_iff, ?N.ltb_lt, ?N.leb_le; lia.
  Qed.
End Row.

Lemma clear_row_panics m minx maxx y fb :
  cfg_ok m -> minx < maxx <= 336 -> y < 536 -> is_frbuf fb ->
  ovf m = true -> clear_shift_overflow minx maxx = true ->
  clear_row m (minx / 32) (maxx / 32) (32 - minx mod 32) (maxx mod 32) y fb = Panic.
Proof.
  intros Hm Hx Hy Hfb Ho Hs. pose proof (limit_ge m Hm) as HL.
  unfold clear_shift_overflow in Hs; rewrite andb_true_iff, N.eqb_eq, N.ltb_lt in Hs.
  destruct Hs as [Hs1 Hs2].
  unfold clear_row, WORDS_PER_LINE.
  rewrite umul_ok by lia. cbn [bind].
  rewrite usub_ok by lia. cbn [bind].
  rewrite shl32_ok by lia. cbn [bind].
  rewrite uadd_ok by lia. cbn [bind].
  rewrite fb_aget by (assumption || lia). cbn [bind].
  rewrite fb_aset by (assumption || lia). cbn [bind].
  destruct (for_range _ _ _ _) as [g|]; [|reflexivity]. cbn [bind].
  replace (minx / 32 <? maxx / 32) with true by (symmetry; apply N.ltb_lt; lia).
  rewrite usub_ok by lia. cbn [bind].
  unfold shr32. rewrite Hs1, Ho. reflexivity.
Qed.

Lemma clear_guard clip :
  on_screen clip ->
  (LINES <? py (cmax clip)) || (py (cmax clip) <=? py (cmin clip))
     || (WIDTH <? px (cmax clip)) || (px (cmax clip) <=? px (cmin clip)) = false.
Proof.
  intros [Hx Hy]; apply not_true_is_false; rewrite ?orb_true_iff, ?N.ltb_lt, ?N.leb_le; lia.
Qed.

Lemma clear_exact m fb clip :
  cfg_ok m -> is_frbuf fb -> on_screen clip ->
  (ovf m = true -> clear_shift_overflow (px (cmin clip)) (px (cmax clip)) = false) ->
  exists fb', clear_region m fb clip = Ret fb' /\ is_frbuf fb' /\
    forall x y, x < 352 -> y < 536 ->
      pixel fb' x y = pixel fb x y ||
        in_rect (px (cmin clip)) (py (cmin clip))
                (clear_right (px (cmin clip)) (px (cmax clip))) (py (cmax clip)) x y.
Proof.
  intros Hm Hfb Hclip Hp. unfold clear_region. rewrite (clear_guard clip Hclip).
  destruct Hclip as [Hx Hy]. unfold WIDTH, LINES in *.
  rewrite !uand1f_mod, !ushr5_div. rewrite usub_ok by lia. cbn [bind].
  set (P := fun (y1 : N) (g : frbuf) => is_frbuf g /\
        forall x y, x < 352 -> y < 536 ->
          pixel g x y = pixel fb x y ||
            in_rect (px (cmin clip)) (py (cmin clip))
              (clear_right (px (cmin clip)) (px (cmax clip))) y1 x y).
  destruct (for_range_inv P
     (clear_row m (px (cmin clip) / 32) (px (cmax clip) / 32) (32 - px (cmin clip) mod 32)
        (px (cmax clip) mod 32)) (py (cmin clip)) (py (cmax clip)) fb) as (fb' & E & HP).
  - lia.
  - split; [assumption|]. intros x y Hx' Hy'.
    replace (in_rect _ _ _ _ _ _) with false; [rewrite orb_false_r; reflexivity|].
    symmetry; apply not_true_is_false; unfold in_rect;
      rewrite ?andb_true_iff, ?N.ltb_lt, ?N.leb_le; lia.
  - intros y1 g Hy1 [Hg Hpx].
    destruct (clear_row_spec m Hm (px (cmin clip)) (px (cmax clip)) y1 Hx ltac:(lia) Hp g Hg)
      as (g' & E & Hg' & Hpx').
    exists g'; split; [exact E|split; [exact Hg'|]].
    intros x y Hx' Hy'. rewrite Hpx', Hpx by assumption.
    rewrite <- orb_assoc. f_equal. unfold in_rect.
    apply b2f; rewrite ?orb_true_iff, ?andb_true_iff, ?N.ltb_lt, ?N.leb_le, ?N.eqb_eq; lia.
  - exists fb'. split; [exact E|exact HP].
Qed.

Lemma clear_panics m fb clip :
  cfg_ok m -> is_frbuf fb -> on_screen clip -> ovf m = true ->
  clear_shift_overflow (px (cmin clip)) (px (cmax clip)) = true ->
  clear_region m fb clip = Panic.
Proof.
  intros Hm Hfb Hclip Ho Hs. unfold clear_region. rewrite (clear_guard clip Hclip).
  destruct Hclip as [Hx Hy]. unfold WIDTH, LINES in *.
  rewrite !uand1f_mod, !ushr5_div. rewrite usub_ok by lia. cbn [bind].
  unfold for_range.
  destruct (N.to_nat (py (cmax clip) - py (cmin clip))) as [|n] eqn:En; [lia|].
  simpl. rewrite clear_row_panics by (assumption || lia). reflexivity.
Qed.

Lemma clear_noop m fb clip : ~ on_screen clip -> clear_region m fb clip = Ret fb.
Proof.
  intros H; unfold clear_region.
  destruct ((LINES <? py (cmax clip)) || (py (cmax clip) <=? py (cmin clip))
     || (WIDTH <? px (cmax clip)) || (px (cmax clip) <=? px (cmin clip))) eqn:E; [reflexivity|].
  exfalso; apply H.
  rewrite !orb_false_iff, !N.ltb_ge, !N.leb_gt in E. unfold on_screen. lia.
Qed.

(** ** The properties *)

Lemma clear_cases m fb clip :
  cfg_ok m -> is_frbuf fb ->
  (clear_region m fb clip = Panic <->
   on_screen clip /\ ovf m = true /\
   px (cmax clip) mod 32 = 0 /\ px (cmin clip) / 32 < px (cmax clip) / 32).
Proof.
  intros Hm Hfb.
  assert (Hdec : on_screen clip \/ ~ on_screen clip) by (unfold on_screen; lia).
  assert (Hs : clear_shift_overflow (px (cmin clip)) (px (cmax clip)) = true <->
               px (cmax clip) mod 32 = 0 /\ px (cmin clip) / 32 < px (cmax clip) / 32).
  { unfold clear_shift_overflow. rewrite andb_true_iff, N.eqb_eq, N.ltb_lt. reflexivity. }
  split.
  - intros E. destruct Hdec as [Hc|Hc]; [|rewrite clear_noop in E by assumption; discriminate].
    destruct (clear_shift_overflow (px (cmin clip)) (px (cmax clip))) eqn:Es.
    + destruct (ovf m) eqn:Eo; [split; [assumption|split; [reflexivity|apply Hs; reflexivity]]|].
      destruct (clear_exact m fb clip Hm Hfb Hc) as (fb' & E' & _); [congruence|].
      congruence.
    + destruct (clear_exact m fb clip Hm Hfb Hc) as (fb' & E' & _); [congruence|].
      congruence.
  - intros (Hc & Ho & H). apply clear_panics; try assumption. apply Hs; exact H.
Qed.

Lemma clear_returns m fb clip :
  cfg_ok m -> is_frbuf fb -> on_screen clip ->
  forall fb', clear_region m fb clip = Ret fb' ->
    is_frbuf fb' /\
    forall x y, x < 352 -> y < 536 ->
      pixel fb' x y = pixel fb x y ||
        in_rect (px (cmin clip)) (py (cmin clip))
                (clear_right (px (cmin clip)) (px (cmax clip))) (py (cmax clip)) x y.
Proof.
  intros Hm Hfb Hc fb' E.
  destruct (clear_exact m fb clip Hm Hfb Hc) as (g & E' & Hg & H).
  - intros Ho. apply not_true_is_false; intros Hs.
    rewrite (clear_panics m fb clip Hm Hfb Hc Ho Hs) in E; discriminate.
  - rewrite E in E'; injection E' as <-. split; assumption.
Qed.

Lemma clear_right_ge a b : a < b -> b <= clear_right a b.
Proof.
  intros H; unfold clear_right.
  destruct (N.eqb_spec (a / 32) (b / 32)); [lia|].
  destruct (N.eqb_spec (b mod 32) 0); lia.
Qed.

Lemma clear_sets m fb clip fb' :
  cfg_ok m -> is_frbuf fb -> on_screen clip -> clear_region m fb clip = Ret fb' ->
  forall x y, in_clip clip x y = true -> pixel fb' x y = true.
Proof.
  intros Hm Hfb Hc E x y Hin.
  destruct (clear_returns m fb clip Hm Hfb Hc fb' E) as [_ H].
  destruct Hc as [Hx Hy]. unfold WIDTH, LINES in *.
  pose proof (clear_right_ge _ _ (proj1 Hx)) as Hr.
  unfold in_clip, in_rect in Hin.
  rewrite H by lia. unfold in_rect. lia.
Qed.

(** A frame buffer with every pixel unset *)
Definition blank : frbuf := repeat 0 (N.to_nat FRAME_BUF_SIZE).
Lemma blank_ok : is_frbuf blank.
Proof.
  unfold is_frbuf, blank; split; [rewrite repeat_length; lia|].
  apply Forall_forall; intros w Hw; apply repeat_spec in Hw; subst; reflexivity.
Qed.
Lemma pixel_blank x y : pixel blank x y = false.
Proof.
  unfold pixel, blank. generalize (N.to_nat FRAME_BUF_SIZE) as n.
  generalize (N.to_nat (y * WORDS_PER_LINE + x / 32)) as k.
  intros k n; replace (nth k (repeat 0 n) 0) with 0; [apply N.bits_0|].
  revert k; induction n as [|n IH]; intros [|k]; simpl; auto.
Qed.

Lemma clear_contained m clip :
  cfg_ok m ->
  (forall fb fb', is_frbuf fb -> clear_region m fb clip = Ret fb' ->
     forall x y, x < STORED_WIDTH -> y < LINES -> in_clip clip x y = false ->
       pixel fb' x y = pixel fb x y)
  <-> (~ on_screen clip \/ ovf m = true /\
         px (cmax clip) mod 32 = 0 /\ px (cmin clip) / 32 < px (cmax clip) / 32 \/
       px (cmin clip) / 32 < px (cmax clip) / 32 /\ px (cmax clip) mod 32 <> 0).
Proof.
  intros Hm. unfold STORED_WIDTH, LINES. split.
  - intros H.
    assert (Hdec : on_screen clip \/ ~ on_screen clip) by (unfold on_screen; lia).
    destruct Hdec as [Hc|Hc]; [|auto]. right.
    destruct (clear_region m blank clip) as [fb'|] eqn:E.
    2:{ apply clear_cases in E; [|assumption|exact blank_ok]. left; tauto. }
    right.
    specialize (H blank fb' blank_ok E (px (cmax clip)) (py (cmin clip))).
    destruct (clear_returns m blank clip Hm blank_ok Hc fb' E) as [_ H2].
    destruct Hc as [Hx Hy]. unfold WIDTH, LINES in *.
    rewrite H2, pixel_blank in H by lia.
    specialize (H ltac:(lia) ltac:(lia)).
    unfold in_clip, in_rect, clear_right in *.
    destruct (N.eqb_spec (px (cmin clip) / 32) (px (cmax clip) / 32)) as [E1|E1].
    + exfalso. assert (false || false = true) by (rewrite <- H; lia). discriminate.
    + destruct (N.eqb_spec (px (cmax clip) mod 32) 0); [|lia].
      exfalso. assert (false || false = true) by (rewrite <- H; lia). discriminate.
  - intros Hor fb fb' Hfb E x y Hx Hy Hout.
    destruct Hor as [Hc|[Hc|Hc]].
    + rewrite clear_noop in E by assumption. injection E as <-. reflexivity.
    + assert (Hdec : on_screen clip \/ ~ on_screen clip) by (unfold on_screen; lia).
      destruct Hdec as [Hon|Hon].
      * rewrite (proj2 (clear_cases m fb clip Hm Hfb)) in E by tauto. discriminate.
      * rewrite clear_noop in E by assumption. injection E as <-. reflexivity.
    + assert (Hdec : on_screen clip \/ ~ on_screen clip) by (unfold on_screen; lia).
      destruct Hdec as [Hon|Hon].
      * destruct (clear_returns m fb clip Hm Hfb Hon fb' E) as [_ H2].
        rewrite H2 by lia.
        replace (in_rect _ _ _ _ _ _) with false; [apply orb_false_r|].
        unfold in_clip, in_rect, clear_right in *. symmetry.
        destruct (N.eqb_spec (px (cmin clip) / 32) (px (cmax clip) / 32)); [lia|].
        destruct (N.eqb_spec (px (cmax clip) mod 32) 0); [lia|].
        exact Hout.
      * rewrite clear_noop in E by assumption. injection E as <-. reflexivity.
Qed.

Lemma clear_idempotent m fb clip fb' :
  cfg_ok m -> is_frbuf fb -> clear_region m fb clip = Ret fb' ->
  clear_region m fb' clip = Ret fb' /\ is_frbuf fb' /\
  forall x y, x < STORED_WIDTH -> y < LINES -> pixel fb x y = true -> pixel fb' x y = true.
Proof.
  intros Hm Hfb E. unfold STORED_WIDTH, LINES.
  assert (Hdec : on_screen clip \/ ~ on_screen clip) by (unfold on_screen; lia).
  destruct Hdec as [Hon|Hon].
  - destruct (clear_returns m fb clip Hm Hfb Hon fb' E) as [Hfb' H2].
    split; [|split; [assumption|]].
    + destruct (clear_region m fb' clip) as [g|] eqn:E2.
      * destruct (clear_returns m fb' clip Hm Hfb' Hon g E2) as [Hg H3].
        f_equal. apply pixel_ext; try assumption.
        intros x y Hx Hy. rewrite H3, H2 by assumption.
        destruct (pixel fb x y), (in_rect _ _ _ _ _ _); reflexivity.
      * apply clear_cases in E2; try assumption.
        rewrite (proj2 (clear_cases m fb clip Hm Hfb) E2) in E. discriminate.
    + intros x y Hx Hy Hp. rewrite H2, Hp by assumption. reflexivity.
  - rewrite clear_noop in E by assumption. injection E as <-.
    rewrite clear_noop by assumption. auto.
Qed.
