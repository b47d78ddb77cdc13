(** * The fonts contain exactly what the index lists say *)
From Coq Require Import ZArith.
From Verif Require Import FbFacts Str M3Hash FontDefs SpecPaint LookupProofs HashProofs SpecIndex IndexCheck.
From Verif Require Import Blit Fonts FontsOk IndexLatin IndexEmoji IndexHanzi.

Definition index_okb (gs : glyphset) : bool :=
  let f := blitstr_fonts gs in
  let maps := block_maps f in
  all_found f maps (font_index gs) (starts f) && forallb (same_found f maps) (font_aliases gs).

Lemma index_ok gs : index_okb gs = true.
Proof. destruct gs; vm_cast_no_check (eq_refl true). Qed.

(** the one-character clusters *)
Definition singles (gs : glyphset) : list N :=
  flat_map (fun s => match s with [c] => [c] | _ => [] end)
    (font_index gs ++ map snd (font_aliases gs)).

Lemma singles_listed gs c : In c (singles gs) -> listed gs [c].
Proof.
  unfold singles, listed. intros H. apply in_flat_map in H as (s & H1 & H2).
  destruct s as [|d [|]]; simpl in H2; try contradiction. destruct H2 as [->|[]].
  apply in_app_or in H1. exact H1.
Qed.

Lemma singles_ok gs : singles_only (blitstr_fonts gs) (tset (singles gs)) = true.
Proof. destruct gs; vm_cast_no_check (eq_refl true). Qed.

Lemma all_fonts_ok gs : font_ok (blitstr_fonts gs).
Proof. exact (fs_fonts _ fonts_ok gs). Qed.

(** ** C29 *)
Lemma index_found gs :
  length (font_index gs) = length (starts (blitstr_fonts gs)) /\
  forall i cl, nth_error (font_index gs) i = Some cl ->
    glyph_for (blitstr_fonts gs) cl = Some (nth i (starts (blitstr_fonts gs)) 0, length cl).
Proof.
  pose proof (index_ok gs) as H. unfold index_okb in H. cbv zeta in H.
  apply andb_prop in H as [H _]. apply all_found_ok; [apply all_fonts_ok|exact H].
Qed.

Lemma alias_found gs canon alias :
  In (canon, alias) (font_aliases gs) ->
  exists off, glyph_for (blitstr_fonts gs) canon = Some (off, length canon) /\
              glyph_for (blitstr_fonts gs) alias = Some (off, length alias).
Proof.
  intros Hin. pose proof (index_ok gs) as H. unfold index_okb in H. cbv zeta in H.
  apply andb_prop in H as [_ H]. rewrite forallb_forall in H. specialize (H _ Hin).
  apply same_found_ok in H; [exact H|apply all_fonts_ok].
Qed.

Lemma lookup_all gs cl off :
  glyph_for (blitstr_fonts gs) cl = Some (off, length cl) ->
  get_blit_pattern_offset (blitstr_fonts gs) cl = Ret (Some (off, str_len cl)).
Proof.
  intros H. rewrite lookup_spec by apply all_fonts_ok. rewrite H. cbn [lookup_result].
  rewrite firstn_all. reflexivity.
Qed.

Lemma lookup_index gs i cl :
  nth_error (font_index gs) i = Some cl ->
  get_blit_pattern_offset (blitstr_fonts gs) cl =
    Ret (Some (nth i (starts (blitstr_fonts gs)) 0, str_len cl)).
Proof. intros H. apply lookup_all. apply (index_found gs). exact H. Qed.

Lemma lookup_alias gs canon alias :
  In (canon, alias) (font_aliases gs) ->
  exists off, get_blit_pattern_offset (blitstr_fonts gs) canon = Ret (Some (off, str_len canon)) /\
              get_blit_pattern_offset (blitstr_fonts gs) alias = Ret (Some (off, str_len alias)).
Proof.
  intros H. destruct (alias_found gs canon alias H) as (off & H1 & H2).
  exists off; split; apply lookup_all; assumption.
Qed.

Lemma listed_found gs cl :
  listed gs cl -> exists off, glyph_for (blitstr_fonts gs) cl = Some (off, length cl).
Proof.
  intros [H|H].
  - apply In_nth_error in H as (i & Hi). eexists. apply (index_found gs). exact Hi.
  - apply in_map_iff in H as ([canon alias] & E & Hin). cbn [snd] in E. subst alias.
    destruct (alias_found gs canon cl Hin) as (off & _ & H2). exists off; exact H2.
Qed.

(** the canonical clusters are in the index *)
Fixpoint str_eqb (a b : str) : bool :=
  match a, b with
  | [], [] => true
  | x :: a', y :: b' => (x =? y) && str_eqb a' b'
  | _, _ => false
  end.
Lemma str_eqb_eq a b : str_eqb a b = true <-> a = b.
Proof.
  revert b; induction a as [|x a IH]; intros [|y b]; simpl; try (split; congruence).
  rewrite andb_true_iff, N.eqb_eq, IH. split; [intros [-> ->]; reflexivity|intros E; injection E; auto].
Qed.
Definition inb (s : str) (l : list str) : bool := existsb (str_eqb s) l.
Lemma inb_in s l : inb s l = true <-> In s l.
Proof.
  unfold inb. rewrite existsb_exists. split.
  - intros (x & H & E). apply str_eqb_eq in E. subst; exact H.
  - intros H. exists s. split; [exact H|apply str_eqb_eq; reflexivity].
Qed.

(** ** C30 *)
Lemma single_listed gs c :
  scalar c -> ((exists r, get_blit_pattern_offset (blitstr_fonts gs) [c] = Ret (Some r)) <-> listed gs [c]).
Proof.
  intros Hc. split.
  - intros (r & E). rewrite lookup_spec in E by apply all_fonts_ok.
    destruct (glyph_for (blitstr_fonts gs) [c]) as [g|] eqn:Eg; [|discriminate].
    apply singles_listed. apply (singles_only_ok (blitstr_fonts gs) (singles gs) c g).
    + apply all_fonts_ok.
    + apply singles_ok.
    + unfold scalar in Hc. lia.
    + exact Eg.
  - intros H. destruct (listed_found gs [c] H) as (off & E). eexists. apply lookup_all. exact E.
Qed.

Fixpoint ranges_disjoint (bs : list block) : bool :=
  match bs with
  | [] => true
  | b :: rest => (b_low b <=? b_high b) && forallb (fun c => b_high b <? b_low c) rest && ranges_disjoint rest
  end.
Lemma ranges_ok gs : ranges_disjoint (f_blocks (blitstr_fonts gs)) = true.
Proof. destruct gs; vm_compute; reflexivity. Qed.

Lemma blocks_apart gs i j b c :
  nth_error (f_blocks (blitstr_fonts gs)) i = Some b ->
  nth_error (f_blocks (blitstr_fonts gs)) j = Some c -> (i < j)%nat -> b_high b < b_low c.
Proof.
  pose proof (ranges_ok gs) as H. revert i j H. generalize (f_blocks (blitstr_fonts gs)) as bs.
  induction bs as [|x bs IH]; intros i j H Hi Hj Hij; [destruct i; discriminate|].
  cbn [ranges_disjoint] in H. apply andb_prop in H as [H1 H2]. apply andb_prop in H1 as [_ H1].
  destruct j as [|j]; [lia|]. cbn [nth_error] in Hj.
  destruct i as [|i].
  - cbn [nth_error] in Hi. injection Hi as ->. rewrite forallb_forall in H1.
    apply nth_error_In in Hj. specialize (H1 c Hj). lia.
  - apply (IH i j); try assumption. lia.
Qed.
