(** * Properties C04 - C08: clear_region *)
From Verif Require Import Prim PrimFacts Geom Spec Blit ClearProofs.

Definition release32 : cfg := Cfg false 32.
Definition debug64 : cfg := Cfg true 64.

(** C04 *)
Theorem C04_clear_sets_rectangle : forall m fb clip fb',
  cfg_ok m -> is_frbuf fb -> on_screen clip -> clear_region m fb clip = Ret fb' ->
  forall x y, in_clip clip x y = true -> pixel fb' x y = true.
Proof. exact clear_sets. Qed.
Print Assumptions C04_clear_sets_rectangle.

(** Rows 5 and 6 of a blank buffer, columns 3..40; the call returns in every mode. *)
Example C04_case : forall m, cfg_ok m ->
  on_screen (cliprect_new 3 5 40 7) /\
  exists fb', clear_region m blank (cliprect_new 3 5 40 7) = Ret fb' /\
  (pixel blank 39 6 = false /\ pixel fb' 39 6 = true /\ pixel fb' 40 6 = false).
Proof.
  intros m Hm; split; [vm_compute; intuition congruence|revert m Hm].
  assert (A : forall g, negb (pixel blank 39 6) && pixel g 39 6 && negb (pixel g 40 6) = true ->
     pixel blank 39 6 = false /\ pixel g 39 6 = true /\ pixel g 40 6 = false)
    by (intros g; destruct (pixel blank 39 6), (pixel g 39 6), (pixel g 40 6); simpl; auto).
  apply all_cfgs; apply (ret_check_ex _ _ _ A); vm_compute; reflexivity.
Qed.

(** C05, exact form: for a clip on the screen the pixels set are those of the rows
    of the clip from min.x up to a right edge that is max.x, except that it is the
    end of the word when both edges are in one 32-pixel word, and max.x + 32 when
    max.x is a multiple of 32 and the clip spans words. *)
Theorem C05_clear_changes_exactly : forall m fb clip,
  cfg_ok m -> is_frbuf fb -> on_screen clip ->
  forall fb', clear_region m fb clip = Ret fb' ->
    is_frbuf fb' /\
    forall x y, x < 352 -> y < 536 ->
      pixel fb' x y = pixel fb x y ||
        in_rect (px (cmin clip)) (py (cmin clip))
                (clear_right (px (cmin clip)) (px (cmax clip))) (py (cmax clip)) x y.
Proof. exact clear_returns. Qed.
Print Assumptions C05_clear_changes_exactly.

(** C05: no pixel outside the clip changes, for any frame buffer, exactly under
    the stated condition on the clip. *)
Theorem C05_clear_contained_iff : forall m clip,
  cfg_ok m ->
  (forall fb fb', is_frbuf fb -> clear_region m fb clip = Ret fb' ->
     forall x y, x < STORED_WIDTH -> y < LINES -> in_clip clip x y = false ->
       pixel fb' x y = pixel fb x y)
  <-> (~ on_screen clip \/ ovf m = true /\
         px (cmax clip) mod 32 = 0 /\ px (cmin clip) / 32 < px (cmax clip) / 32 \/
       px (cmin clip) / 32 < px (cmax clip) / 32 /\ px (cmax clip) mod 32 <> 0).
Proof. exact clear_contained. Qed.
Print Assumptions C05_clear_contained_iff.

Example C05_case : px (cmin full_screen) / 32 < px (cmax full_screen) / 32 /\
                   px (cmax full_screen) mod 32 <> 0.
Proof. split; vm_compute; congruence. Qed.

(** C05 without the condition is false: clearing (4,0)..(8,1) also sets pixel (9,0),
    and in a release build clearing (0,0)..(64,1) also sets pixel (64,0). *)
Theorem C05_clear_contained_refuted :
  (forall m, cfg_ok m -> exists fb',
     clear_region m blank (cliprect_new 4 0 8 1) = Ret fb' /\
  (in_clip (cliprect_new 4 0 8 1) 9 0 = false /\
  pixel blank 9 0 = false /\ pixel fb' 9 0 = true)) /\
  (exists fb',
     clear_region release32 blank (cliprect_new 0 0 64 1) = Ret fb' /\
  (in_clip (cliprect_new 0 0 64 1) 64 0 = false /\
  pixel blank 64 0 = false /\ pixel fb' 64 0 = true)).
Proof.
  split.
  - apply all_cfgs; apply (ret_check_ex _ (fun g => pixel g 9 0));
      try (vm_compute; reflexivity); intros g; rewrite pixel_blank; auto.
  - apply (ret_check_ex _ (fun g => pixel g 64 0));
      try (vm_compute; reflexivity); intros g; rewrite pixel_blank; auto.
Qed.
Print Assumptions C05_clear_contained_refuted.

(** C06: clear_region panics exactly when overflow checks are on, the clip is on the
    screen, max.x is a multiple of 32 and the clip spans more than one word. *)
Theorem C06_clear_panics_iff : forall m fb clip,
  cfg_ok m -> is_frbuf fb ->
  (clear_region m fb clip = Panic <->
   on_screen clip /\ ovf m = true /\
   px (cmax clip) mod 32 = 0 /\ px (cmin clip) / 32 < px (cmax clip) / 32).
Proof. exact clear_cases. Qed.
Print Assumptions C06_clear_panics_iff.

(** C06 without the condition is false *)
Theorem C06_clear_never_panics_refuted :
  clear_region debug64 blank (cliprect_new 0 0 64 1) = Panic.
Proof. vm_compute; reflexivity. Qed.
Print Assumptions C06_clear_never_panics_refuted.

(** C07 *)
Theorem C07_clear_ignores_invalid : forall m fb clip,
  LINES < py (cmax clip) \/ WIDTH < px (cmax clip) \/
  py (cmax clip) <= py (cmin clip) \/ px (cmax clip) <= px (cmin clip) ->
  clear_region m fb clip = Ret fb.
Proof.
  intros m fb clip H; apply clear_noop; unfold on_screen; intros [? ?]; lia.
Qed.
Print Assumptions C07_clear_ignores_invalid.

Example C07_case : WIDTH < px (cmax (ClipRect (Pt 0 0) (Pt 337 10))).
Proof. reflexivity. Qed.

(** C08 *)
Theorem C08_clear_idempotent_monotone : forall m fb clip fb',
  cfg_ok m -> is_frbuf fb -> clear_region m fb clip = Ret fb' ->
  clear_region m fb' clip = Ret fb' /\ is_frbuf fb' /\
  forall x y, x < STORED_WIDTH -> y < LINES -> pixel fb x y = true -> pixel fb' x y = true.
Proof. exact clear_idempotent. Qed.
Print Assumptions C08_clear_idempotent_monotone.

Example C08_case : exists fb',
  clear_region debug64 new_fr_buf (cliprect_new 0 0 40 1) = Ret fb' /\ fb' <> new_fr_buf.
Proof.
  apply (ret_check_ex _ (fun g => pixel g 0 0)); [|vm_compute; reflexivity].
  intros g Hg ->. vm_compute in Hg. discriminate.
Qed.
