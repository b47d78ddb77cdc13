(** * The committed fonts are what the generator makes of the committed sheets *)
From Coq Require Import ZArith.
From Verif Require Import PrimFacts Str M3Hash FontDefs SpecPaint SpecCodegen SpecSheet SpecIndex Codegen CodegenText FontCheck.
From Verif Require Import Fonts.
From Verif Require Import PackProofs TrimProofs CgIndex CgFont CgGenerate CgMore SheetCheck SheetIndex SheetCells Sheets.

Definition hex_isb (hex : list N) (cl : str) : bool :=
  match string_from_hex_gc hex with Ret s => eqlist s cl | Panic => false end.

Definition nonempty {A} (l : list A) : bool := match l with [] => false | _ => true end.

Definition sheet_fontb (gs : glyphset) : bool :=
  let f := font_spec gs in
  let fnt := blitstr_fonts gs in
  let rows := sheet_rows gs in
  let csl := font_charspecs gs in
  let cls := font_index gs in
  let pairs := font_aliases gs in
  layout_okb f (sheet_width gs) rows
  && all2 (fun cs cl => hex_isb (cs_hex cs) cl) csl cls
  && all2 (fun a p => hex_isb (canon_hex a) (fst p) && hex_isb (alias_hex a) (snd p)) (font_gcaliases gs) pairs
  && forallb (fun p => existsb (eqlist (fst p)) cls) pairs
  && (f_max_height fnt =? Z.to_N (fs_size f)) && (f_seed fnt =? fs_seed f)
  && pieces_okb (f_data fnt) && forallb nonempty (f_data fnt)
  && match records (length csl) (concat (f_data fnt)) with
     | None => false
     | Some rs =>
         records_okb f rows csl rs
         && match resolve (combine cls (offsets_from 0 rs)) pairs with
            | None => false
            | Some stored => blocks_listb (fs_seed f) stored (f_blocks fnt)
            end
     end.


Lemma small_checked : sheet_fontb Small = true. Proof. vm_cast_no_check (eq_refl true). Qed.
Lemma regular_checked : sheet_fontb Regular = true. Proof. vm_cast_no_check (eq_refl true). Qed.
Lemma bold_checked : sheet_fontb Bold = true. Proof. vm_cast_no_check (eq_refl true). Qed.
Lemma emoji_checked : sheet_fontb Emoji = true. Proof. vm_cast_no_check (eq_refl true). Qed.
Lemma hanzi_checked : sheet_fontb Hanzi = true. Proof. vm_cast_no_check (eq_refl true). Qed.
Lemma sheets_checked gs : sheet_fontb gs = true.
Proof.
  exact (match gs with
         | Emoji => emoji_checked | Hanzi => hanzi_checked
         | Bold => bold_checked | Regular => regular_checked | Small => small_checked
         end).
Qed.

Lemma hex_isb_eq hex cl : hex_isb hex cl = true -> string_from_hex_gc hex = Ret cl.
Proof.
  unfold hex_isb. destruct (string_from_hex_gc hex) as [s|]; [|discriminate].
  intros H. apply eqlist_eq in H. subst; reflexivity.
Qed.
Lemma all2_forall {A B} (g : A -> B -> bool) (R : A -> B -> Prop) :
  (forall a b, g a b = true -> R a b) -> forall l1 l2, all2 g l1 l2 = true -> Forall2 R l1 l2.
Proof.
  intros H l1. induction l1 as [|a l1 IH]; intros [|b l2] E; cbn [all2] in E; try discriminate; [constructor|].
  apply andb_prop in E. destruct E as [E1 E2]. constructor; auto.
Qed.

Lemma cut_out_set rows size left top r c : is_set (cut_out rows size left top) r c =
  (r <? size)%nat && (c <? size)%nat && black rows (left + c) (top + r).
Proof.
  unfold is_set, cut_out. set (g := fun r c => if black rows (left + c) (top + r) then 1%Z else 0%Z).
  change (map _ (seq 0 size)) with (map (fun r => map (g r) (seq 0 size)) (seq 0 size)).
  destruct (Nat.ltb_spec r size) as [Lr|Lr].
  - rewrite (nth_indep _ [] (map (g O) (seq 0 size))) by (rewrite map_length, seq_length; exact Lr).
    rewrite (map_nth (fun r => map (g r) (seq 0 size))), seq_nth by exact Lr. cbn [Nat.add].
    destruct (Nat.ltb_spec c size) as [Lc|Lc].
    + rewrite (nth_indep _ 0%Z (g r O)) by (rewrite map_length, seq_length; exact Lc).
      rewrite map_nth, seq_nth by exact Lc. cbn [Nat.add andb]. unfold g. destruct (black _ _ _); reflexivity.
    + rewrite nth_overflow by (rewrite map_length, seq_length; exact Lc). reflexivity.
  - rewrite (nth_overflow (map _ _)) by (rewrite map_length, seq_length; exact Lr). destruct c; reflexivity.
Qed.

(** Cells that pass the check can be drawn *)
Lemma records_drawable f width rows outside csl rs :
  layout_okb f width rows = true -> records_okb f rows csl rs = true ->
  Forall (fun cs => drawable (sheet_image width rows outside) f (cs_row cs) (cs_col cs) /\
                    (0 <= cs_row cs)%Z /\ (0 <= cs_col cs < fs_cols f)%Z /\
                    (Z.to_nat (cs_row cs) < g_count f rows)%nat) csl.
Proof.
  intros Hl. unfold records_okb. cbv zeta. revert rs.
  induction csl as [|cs csl IH]; intros [|r rs] H; cbn [all2] in H; try discriminate; [constructor|].
  apply andb_prop in H. destruct H as [H1 H2]. constructor; [|exact (IH _ H2)].
  destruct r as [|hdr ws]; [discriminate|]. unfold record_okb in H1. rewrite !andb_true_iff in H1.
  destruct H1 as [[[[R1 R2] R3] R4] G].
  assert (Hn : (Z.to_nat (cs_row cs) < g_count f rows)%nat) by lia.
  split; [|lia]. unfold glyph_okb in G. cbv zeta in G. rewrite !andb_true_iff in G.
  destruct G as [[[_ G] _] _]. apply orb_prop in G. unfold drawable. cbv zeta. destruct G as [G|G].
  - left. change (nth (Z.to_nat (cs_col cs)) (nth (Z.to_nat (cs_row cs)) (table f rows) []) [])
      with (cell_at f rows (Z.to_nat (cs_row cs)) (Z.to_nat (cs_col cs))) in G.
    set (ink := or_rows _) in G. assert (Hi : ink <> 0) by (intros E; rewrite E in G; discriminate).
    assert (B : exists c, N.testbit ink c = true).
    { exists (N.log2 ink). apply N.bit_log2. exact Hi. }
    destruct B as (c & B). unfold ink in B. apply or_rows_bit in B. destruct B as (r & B).
    exists r, (N.to_nat c). rewrite (grid_cell_bit f width rows outside Hl) by lia.
    rewrite N2Nat.id. exact B.
  - right. lia.
Qed.

Lemma tight_ext t r b l m m' w h w' h' x y : (forall i j, is_set m i j = is_set m' i j) ->
  tight t r b l m w h w' h' x y -> tight t r b l m' w h w' h' x y.
Proof.
  intros E [F1 [F2 F3] [F4 F5] [F6 F7] [F8 F9]].
  assert (C : forall k, ~ col_blank m k -> ~ col_blank m' k) by (intros k H B; apply H; intros i; rewrite E; apply B).
  assert (R : forall k, ~ row_blank m k -> ~ row_blank m' k) by (intros k H B; apply H; intros i; rewrite E; apply B).
  split; [exact F1| | | |]; (split; [assumption|]).
  - destruct F3 as [F3|F3]; [left; exact F3|right; exact (C _ F3)].
  - destruct F5 as [F5|F5]; [left; exact F5|right; exact (C _ F5)].
  - destruct F7 as [F7|F7]; [left; exact F7|right; exact (R _ F7)].
  - destruct F9 as [F9|F9]; [left; exact F9|right; exact (R _ F9)].
Qed.

Section Sheet.
  Variables (gs : glyphset) (outside : Z -> Z -> N).
  Let f := font_spec gs.
  Let img := sheet_image (sheet_width gs) (sheet_rows gs) outside.

  Lemma spec_size : cell_size f = Z.to_nat (fs_size f) /\ (0 < fs_size f <= 32)%Z.
  Proof. unfold f. destruct gs; vm_compute; repeat split; discriminate. Qed.

  Lemma sheet_parts : exists rs stored,
    layout_okb f (sheet_width gs) (sheet_rows gs) = true /\
    Forall2 (fun cs cl => string_from_hex_gc (cs_hex cs) = Ret cl) (font_charspecs gs) (font_index gs) /\
    Forall2 parses (font_gcaliases gs) (font_aliases gs) /\
    (forall canon alias, In (canon, alias) (font_aliases gs) -> In canon (font_index gs)) /\
    f_max_height (blitstr_fonts gs) = Z.to_N (fs_size f) /\ f_seed (blitstr_fonts gs) = fs_seed f /\
    pieces_okb (f_data (blitstr_fonts gs)) = true /\ Forall (fun p => p <> []) (f_data (blitstr_fonts gs)) /\
    concat rs = concat (f_data (blitstr_fonts gs)) /\
    records_okb f (sheet_rows gs) (font_charspecs gs) rs = true /\
    resolve (combine (font_index gs) (offsets_from 0 rs)) (font_aliases gs) = Some stored /\
    blocks_listb (fs_seed f) stored (f_blocks (blitstr_fonts gs)) = true.
  Proof.
    pose proof (sheets_checked gs) as H. unfold sheet_fontb in H. cbv zeta in H. fold f in H.
    rewrite !andb_true_iff in H. destruct H as [[[[[[[[H1 H2] H3] H4] H5] H6] H7] H8] H9].
    destruct (records _ _) as [rs|] eqn:Er; [|discriminate].
    apply andb_prop in H9. destruct H9 as [H9 H10].
    destruct (resolve _ _) as [stored|] eqn:Es; [|discriminate].
    exists rs, stored. split; [exact H1|]. split.
    { eapply all2_forall; [|exact H2]. intros a b. apply hex_isb_eq. }
    split.
    { eapply all2_forall; [|exact H3]. intros a b E. apply andb_prop in E. destruct E as [E1 E2].
      split; apply hex_isb_eq; assumption. }
    split.
    { rewrite forallb_forall in H4. intros canon alias I. specialize (H4 _ I). cbn [fst] in H4.
      apply existsb_exists in H4. destruct H4 as (cl & J & E). apply eqlist_eq in E. subst; exact J. }
    split; [apply N.eqb_eq; exact H5|]. split; [apply N.eqb_eq; exact H6|]. split; [exact H7|]. split.
    { rewrite Forall_forall. rewrite forallb_forall in H8. intros p I E. specialize (H8 p I). subst p. discriminate. }
    split; [eapply records_concat; exact Er|]. split; [exact H9|]. split; [exact Es|exact H10].
  Qed.

  Lemma sheet_generates : generate f img (font_charspecs gs) (font_gcaliases gs) = Ret (blitstr_fonts gs).
  Proof.
    destruct sheet_parts as (rs & stored & H1 & H2 & H3 & H4 & H5 & H6 & H7 & H8 & H9 & H10 & H11 & H12).
    destruct (records_sound f (sheet_width gs) (sheet_rows gs) outside _ rs H1 H10) as (pl & Ep & Ew).
    apply (generate_exact f img (font_charspecs gs) (font_gcaliases gs) pl (font_index gs) (font_aliases gs) stored);
      try assumption; rewrite Ew; assumption.
  Qed.

  Lemma index_size : N.of_nat (length (font_charspecs gs)) < 2 ^ 25.
  Proof.
    destruct sheet_parts as (rs & stored & _ & F & _). rewrite (Forall2_length' _ _ _ F). clear.
    assert (E : (N.of_nat (length (font_index gs)) <? 2 ^ 25) = true) by (destruct gs; vm_compute; reflexivity).
    apply N.ltb_lt. exact E.
  Qed.

  Lemma sheet_glyphs n cs cl :
    nth_error (font_charspecs gs) n = Some cs -> nth_error (font_index gs) n = Some cl ->
    exists off x, glyph_for (blitstr_fonts gs) cl = Some (off, length cl) /\
      draws (blitstr_fonts gs) off
        (cut_out (sheet_rows gs) (cell_size f) (g_border f + Z.to_nat (cs_col cs) * g_step f)
                 (g_border f + Z.to_nat (cs_row cs) * g_step f)) x /\
      let l := trim_limits f (cs_row cs) (cs_col cs) in
      cut_close (l_top l) (l_right l) (l_bottom l) (l_left l) (blitstr_fonts gs) off
        (cut_out (sheet_rows gs) (cell_size f) (g_border f + Z.to_nat (cs_col cs) * g_step f)
                 (g_border f + Z.to_nat (cs_row cs) * g_step f))
        (cell_size f) x /\
      (inky (cut_out (sheet_rows gs) (cell_size f) (g_border f + Z.to_nat (cs_col cs) * g_step f)
                 (g_border f + Z.to_nat (cs_row cs) * g_step f))
       \/ ((Z.to_nat (l_left l) + Z.to_nat (l_right l) < cell_size f)%nat /\
          (Z.to_nat (l_top l) + Z.to_nat (l_bottom l) < cell_size f)%nat)).
  Proof.
    destruct sheet_parts as (rs & stored & H1 & H2 & H3 & H4 & H5 & H6 & H7 & H8 & H9 & H10 & H11 & H12).
    destruct spec_size as [S1 S2].
    pose proof (records_drawable f (sheet_width gs) (sheet_rows gs) outside _ rs H1 H10) as D.
    intros Ec El.
    destruct (generated_glyphs f img (font_charspecs gs) (font_gcaliases gs) (font_index gs) (font_aliases gs)
                (blitstr_fonts gs) sheet_generates H2 H3 S1 S2) with (n := n) (cs := cs) (cl := cl)
      as (off & x & G & Dr & Cc); try assumption.
    - eapply Forall_impl; [|exact D]. intros a [A _]. exact A.
    - apply index_size.
    - pose proof (listed_no_collisions _ _ _ H12) as NC. rewrite (resolve_fst _ _ _ H11) in NC.
      rewrite combine_fst in NC; [exact NC|]. rewrite offsets_length.
      destruct (records_sound f (sheet_width gs) (sheet_rows gs) outside _ rs H1 H10) as (pl & Ep & Ew).
      rewrite <- Ew, map_length, <- (map_length bp_cs pl), (pattern_list_cs _ _ _ _ Ep). symmetry. exact (Forall2_length' _ _ _ H2).
    - exists off, x. split; [exact G|].
      assert (I : In cs (font_charspecs gs)) by (eapply nth_error_In; exact Ec).
      rewrite Forall_forall in D. destruct (D cs I) as (D0 & D1 & D2 & D3).
      assert (Ei : forall r c, is_set (grid_cell img f (cs_row cs) (cs_col cs)) r c =
        is_set (cut_out (sheet_rows gs) (cell_size f) (g_border f + Z.to_nat (cs_col cs) * g_step f)
                 (g_border f + Z.to_nat (cs_row cs) * g_step f)) r c).
      { intros r c. rewrite cut_out_set. unfold img.
        rewrite (grid_cell_bit f (sheet_width gs) (sheet_rows gs) outside H1) by assumption.
        apply (cell_at_bit f (sheet_width gs) (sheet_rows gs) H1); [exact D3|unfold g_cols; lia]. }
      split; [|cbv zeta; split].
      + destruct Dr as [P C]. split.
        * intros r c Hr Hc. rewrite <- Ei. exact (P r c Hr Hc).
        * intros r c S. rewrite <- Ei in S. exact (C r c S).
      + exact (tight_ext _ _ _ _ _ _ _ _ _ _ _ _ Ei Cc).
      + destruct D0 as [(r & c & S)|D0]; [left|right; exact D0].
        exists r, c. rewrite <- Ei. exact S.
  Qed.
End Sheet.
