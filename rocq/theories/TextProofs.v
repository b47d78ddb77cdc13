(** * How paint_str reads a string: proofs *)
From Coq Require Import ZArith.
From Verif Require Export LayoutProofs SpecText.

Ltac binv :=
  repeat match goal with
  | H : bind ?r _ = Ret _ |- _ => destruct r eqn:?; cbn [bind] in H; [|discriminate H]
  | H : (let '(_, _) := ?p in _) = Ret _ |- _ => destruct p
  | H : Ret _ = Ret _ |- _ => injection H; clear H; intros; subst
  end.

(** ** What xor_char can return *)
Lemma xor_char_inv m F fb clip c s gs fb' c' r :
  font_ok (F gs) -> xor_char m F fb clip c s gs = Ret (fb', c', r) ->
  match r with
  | None => fb' = fb /\ c' = c /\ glyph_for (F gs) s = None
  | Some n => (n = 0 /\ fb' = fb) \/
              (exists off k, glyph_for (F gs) s = Some (off, k) /\ n = str_len (firstn k s))
  end.
Proof.
  intros Hf. unfold xor_char.
  destruct ((LINES <? _) || _ || _); [intros E; binv; left; auto|].
  rewrite lookup_spec by assumption. cbn [bind].
  destruct (glyph_for (F gs) s) as [[off k]|] eqn:Eg; cbn [lookup_result].
  2:{ intros E; binv; auto. }
  intros E. binv.
  destruct (32 <? _); [binv; left; auto|]. binv.
  match type of E with (if ?b then _ else _) = _ => destruct b end; binv; [left; auto|]. right; eauto.
Qed.

(** ** C26 *)
Lemma lookup_boundary f s :
  font_ok f ->
  get_blit_pattern_offset f s = Ret None \/
  exists off n a t, get_blit_pattern_offset f s = Ret (Some (off, n)) /\
    s = a ++ t /\ a <> [] /\ n = str_len a /\ slice_from s n = Ret t.
Proof.
  intros Hf. rewrite lookup_spec by assumption.
  destruct (glyph_for f s) as [[off k]|] eqn:E; [right|left; reflexivity].
  destruct (glyph_for_ok f s off k Hf E) as [_ [Hk1 Hk2]].
  exists off, (str_len (firstn k s)), (firstn k s), (skipn k s).
  split; [reflexivity|]. split; [symmetry; apply firstn_skipn|].
  split; [|split; [reflexivity|apply slice_prefix]].
  destruct s as [|ch t]; [simpl in *; lia|]. destruct k; [lia|]. discriminate.
Qed.

Lemma xor_char_boundary m F fb clip c s gs fb' c' n :
  (forall gs, font_ok (F gs)) ->
  xor_char m F fb clip c s gs = Ret (fb', c', Some n) ->
  exists a t, s = a ++ t /\ str_len a = n /\ slice_from s n = Ret t /\ (fb' <> fb -> a <> []).
Proof.
  intros HF E. pose proof (xor_char_inv _ _ _ _ _ _ _ _ _ _ (HF gs) E) as [[-> ->]|(off & k & Eg & ->)].
  - exists [], s. split; [reflexivity|split; [reflexivity|split; [|congruence]]].
    destruct s; reflexivity.
  - exists (firstn k s), (skipn k s). split; [symmetry; apply firstn_skipn|split; [reflexivity|]].
    split; [apply slice_prefix|]. intros _ Ha.
    destruct (glyph_for_ok _ _ _ _ (HF gs) Eg) as [_ [Hk1 Hk2]].
    destruct s as [|ch t]; [simpl in *; lia|]. destruct k; [lia|]. discriminate.
Qed.

(** Every iteration leaves a suffix of the string, and a strictly shorter one if it
    drew a font glyph *)
Lemma step_suffix m F clip st fb c s fb' c' s' :
  (forall gs, font_ok (F gs)) -> s <> [] ->
  paint_step m F clip st fb c s = Ret (fb', c', s') ->
  exists a, s = a ++ s' /\
    (fb' <> fb -> a = [] -> exists u, s = [u] /\
       forall gs, gs = Emoji \/ gs = latin_set st \/ gs = Hanzi -> glyph_for (F gs) s = None).
Proof.
  intros HF Hs E. rewrite paint_step_cases in E. destruct s as [|ch t]; [congruence|].
  destruct (N.eqb_spec ch 10) as [->|Hne].
  { binv. apply slice_inv in Heqr0 as (a & E1 & E2). exists a; split; [assumption|congruence]. }
  unfold step_glyph in E.
  assert (Hhit : forall fb0 c0 fb1 c1 n gs f2 c2 s2, fb0 = fb ->
     xor_char m F fb0 clip c0 (ch :: t) gs = Ret (fb1, c1, Some n) ->
     (rest <- slice_from (ch :: t) n ;; Ret (fb1, c1, rest)) = Ret (f2, c2, s2) ->
     exists a, ch :: t = a ++ s2 /\ (f2 <> fb -> a = [] -> exists u, ch :: t = [u] /\
       forall gs, gs = Emoji \/ gs = latin_set st \/ gs = Hanzi -> glyph_for (F gs) (ch :: t) = None)).
  { intros fb0 c0 fb1 c1 n gs f2 c2 s2 -> E1 E2.
    apply xor_char_boundary in E1 as (a & t' & Es & _ & Esl & Hne'); [|assumption].
    rewrite Esl in E2. binv. exists a. split; [assumption|].
    intros H1 H2. exfalso; exact (Hne' H1 H2). }
  destruct (xor_char m F fb clip c (ch :: t) Emoji) as [[[fb1 c1] r1]|] eqn:X1; cbn [bind] in E; [|discriminate].
  pose proof (xor_char_inv _ _ _ _ _ _ _ _ _ _ (HF Emoji) X1) as I1.
  destruct r1 as [n1|]; [exact (Hhit _ _ _ _ _ _ _ _ _ eq_refl X1 E)|].
  destruct I1 as (-> & -> & G1).
  destruct (xor_char m F fb clip c (ch :: t) (latin_set st)) as [[[fb2 c2] r2]|] eqn:X2; cbn [bind] in E; [|discriminate].
  pose proof (xor_char_inv _ _ _ _ _ _ _ _ _ _ (HF _) X2) as I2.
  destruct r2 as [n2|]; [exact (Hhit _ _ _ _ _ _ _ _ _ eq_refl X2 E)|].
  destruct I2 as (-> & -> & G2).
  destruct (xor_char m F fb clip c (ch :: t) Hanzi) as [[[fb3 c3] r3]|] eqn:X3; cbn [bind] in E; [|discriminate].
  pose proof (xor_char_inv _ _ _ _ _ _ _ _ _ _ (HF _) X3) as I3.
  destruct r3 as [n3|]; [exact (Hhit _ _ _ _ _ _ _ _ _ eq_refl X3 E)|].
  destruct I3 as (-> & -> & G3).
  assert (G : forall gs, gs = Emoji \/ gs = latin_set st \/ gs = Hanzi -> glyph_for (F gs) (ch :: t) = None)
    by (intros gs [->|[->| ->]]; assumption).
  destruct (xor_char m F fb clip c replacement (latin_set st)) as [[[fb4 c4] r4]|] eqn:X4; cbn [bind] in E; [|discriminate].
  pose proof (xor_char_inv _ _ _ _ _ _ _ _ _ _ (HF _) X4) as I4.
  destruct r4 as [n4|].
  - rewrite second_index in E. destruct t as [|d t].
    + binv. exists []. split; [reflexivity|]. intros _ _. eauto.
    + binv. apply slice_inv in Heqr as (a & E1 & E2). exists a; split; [assumption|].
      intros _ ->. pose proof (len_utf8_pos ch). simpl in E2. lia.
  - destruct I4 as (-> & -> & _). binv. exists []. split; [reflexivity|]. congruence.
Qed.

Lemma paint_rest_loop n m F clip st fb c s :
  paint_loop n m F clip st fb c s
  = (r <- paint_rest n m F clip st fb c s ;; Ret (fst r)).
Proof.
  revert fb c s; induction n as [|n IH]; intros fb c s; cbn [paint_loop paint_rest]; [reflexivity|].
  destruct s as [|ch t]; [reflexivity|].
  destruct (paint_step m F clip st fb c (ch :: t)) as [[[fb1 c1] s1]|]; cbn [bind]; [apply IH|reflexivity].
Qed.

(** After s.len() iterations nothing is left, unless a glyph was below the clip or
    the string ends in an unknown character *)
Section Rest.
  Context (m : cfg) (F : fontset) (clip : cliprect) (st : glyphstyle).
  Context (Hm : cfg_ok m) (HF : fontset_ok F) (Hclip : paintable clip) (Hfit : clip_fits clip).

  (** the next glyph is known and below the clip *)
  Definition stuck (c : cursor) (s : str) : Prop :=
    nth_error s 0 <> Some 10 /\ s <> [] /\
    exists gs off rest,
      choose F st s = (gs, off, rest, true) /\
      py (cmax clip) < p_y (placed_at F gs off (seek F clip c (gl_w (F gs) off))).

  Definition last_unknown (s : str) : Prop :=
    exists u gs off, u <> 10 /\ s = [u] /\ choose F st s = (gs, off, [u], false).

  Lemma choose_shorter s gs off rest known :
    s <> [] -> choose F st s = (gs, off, rest, known) ->
    (length rest < length s)%nat \/ (known = false /\ rest = s /\ length s = 1%nat).
  Proof.
    intros Hs. unfold choose. pose proof (fs_fonts F HF) as Hfonts.
    assert (A : forall f o n, font_ok f -> glyph_for f s = Some (o, n) -> (length (skipn n s) < length s)%nat).
    { intros f o n Hf E. apply glyph_for_ok in E as [_ Hn]; [|assumption].
      rewrite skipn_length. lia. }
    destruct (glyph_for (F Emoji) s) as [[o n]|] eqn:E1.
    { intros H; injection H as <- <- <- <-. left; eauto. }
    destruct (glyph_for (F (latin_set st)) s) as [[o n]|] eqn:E2.
    { intros H; injection H as <- <- <- <-. left; eauto. }
    destruct (glyph_for (F Hanzi) s) as [[o n]|] eqn:E3.
    { intros H; injection H as <- <- <- <-. left; eauto. }
    intros H; injection H as <- <- <- <-. unfold drop_char.
    destruct s as [|ch [|d t]]; [congruence| |]; simpl; [right; auto|left; lia].
  Qed.

  Lemma stuck_seek c s gs off rest :
    choose F st s = (gs, off, rest, true) -> stuck c s ->
    py (cmax clip) < p_y (placed_at F gs off (seek F clip c (gl_w (F gs) off))) /\
    stuck (seek F clip c (gl_w (F gs) off)) s.
  Proof.
    intros E (H1 & H2 & gs' & off' & rest' & E' & H). rewrite E in E'. injection E' as <- <- <-.
    split; [exact H|]. split; [assumption|split; [assumption|]].
    exists gs, off, rest; split; [assumption|].
    pose proof (seek_le F clip (seek F clip c (gl_w (F gs) off)) (gl_w (F gs) off)).
    unfold placed_at, cursor_le in *; csimpl. lia.
  Qed.

  Lemma paint_rest_end n fb c s :
    is_frbuf fb -> room_n m F n c -> (length s <= n)%nat \/ stuck c s \/ last_unknown s ->
    exists fb' c' s', paint_rest n m F clip st fb c s = Ret (fb', c', s') /\
      (s' = [] \/ stuck c' s' \/ last_unknown s').
  Proof.
    revert fb c s; induction n as [|n IH]; intros fb c s Hfb Hroom Hn; cbn [paint_rest].
    { exists fb, c, s. split; [reflexivity|]. destruct Hn as [Hn|Hn]; [|auto].
      destruct s; [auto|simpl in Hn; lia]. }
    destruct s as [|ch t]; [exists fb, c, []; auto|].
    rewrite paint_step_cases.
    destruct (N.eqb_spec ch 10) as [->|Hne].
    { pose proof (room_n_S m F n c Hroom) as [R1 R2].
      rewrite newline_spec by lia. cbn [bind].
      change (slice_from (10 :: t) 1) with (slice_from (10 :: t) (str_len (firstn 1 (10 :: t)))).
      rewrite slice_prefix. cbn [bind skipn].
      apply IH; [assumption|apply room_break; assumption|].
      destruct Hn as [Hn|[Hn|Hn]]; [left; simpl in Hn; lia| |].
      - destruct Hn as [Hn _]; exfalso; apply Hn; reflexivity.
      - destruct Hn as (u & _ & _ & Hu & E & _); congruence. }
    destruct (choose F st (ch :: t)) as [[[gs off] rest] known] eqn:Ech.
    pose proof (step_glyph_spec m F clip st Hm HF Hclip Hfit fb c (ch :: t) gs off rest known Hfb
                  (room_n_S m F n c Hroom) ltac:(discriminate) Ech) as Hstep.
    cbv zeta in Hstep.
    pose proof (stuck_seek c (ch :: t) gs off rest) as Hss.
    set (c1 := seek F clip c (gl_w (F gs) off)) in *.
    assert (Hr1 : room_n m F n c1) by (apply seek_room; assumption).
    pose proof (choose_shorter (ch :: t) gs off rest known ltac:(discriminate) Ech) as Hsh.
    assert (Hu : known = false -> (length rest <= n)%nat \/ last_unknown rest).
    { intros ->. destruct Hsh as [Hsh|(_ & -> & Hlen)].
      - destruct Hn as [Hn|[Hn|Hn]]; [left; lia| |].
        + destruct Hn as (_ & _ & g' & o' & r' & E' & _). rewrite Ech in E'. discriminate.
        + destruct Hn as (u & g' & o' & Hu & E1 & E2). rewrite Ech in E2. injection E2 as <- <- ->.
          rewrite E1 in Hsh. simpl in Hsh. lia.
      - right. destruct t as [|d t]; [|simpl in Hlen; lia]. exists ch, gs, off. auto. }
    destruct (N.ltb_spec (py (cmax clip)) (p_y (placed_at F gs off c1))) as [Hb|Hb].
    - rewrite Hstep. cbn [bind]. apply IH; [assumption|assumption|]. unfold rest_below.
      destruct known.
      + right; left. apply Hss; [exact Ech|].
        split; [simpl; congruence|split; [discriminate|eauto 6]].
      + destruct (Hu eq_refl); auto.
    - destruct Hstep as (fb1 & E & Hfb1 & Hb1). rewrite E. cbn [bind].
      assert (Hg : glyph_ok (F gs) off) by (eapply (choose_ok F st HF); [|exact Ech]; discriminate).
      apply IH; [assumption|apply (after_room m F clip Hm Hclip); [assumption|apply (seek_x F clip)|assumption]|].
      destruct known.
      + destruct Hsh as [Hsh|[Hsh _]]; [|discriminate].
        destruct Hn as [Hn|[Hn|Hn]]; [left; lia| |].
        * apply Hss in Hn as [Hn _]; [|exact Ech]. lia.
        * destruct Hn as (u & g' & o' & _ & E1 & E2). rewrite Ech in E2. discriminate.
      + destruct (Hu eq_refl); auto.
  Qed.
End Rest.

Lemma paint_consumes m F fb clip c st s :
  cfg_ok m -> fontset_ok F -> is_frbuf fb -> paintable clip -> clip_fits clip -> cursor_fits m F c s ->
  exists fb' c' s',
    paint_rest (N.to_nat (str_len s)) m F clip st fb c s = Ret (fb', c', s') /\
    paint_str m F fb clip c st s = Ret (fb', c') /\
    (s' = [] \/ stuck F clip st c' s' \/ last_unknown F st s').
Proof.
  intros Hm HF Hfb Hclip Hfit Hc.
  destruct (paint_rest_end m F clip st Hm HF Hclip Hfit (N.to_nat (str_len s)) fb c s Hfb)
    as (fb' & c' & s' & E & H).
  - apply cursor_fits_room; assumption.
  - left. pose proof (str_len_ge s). lia.
  - exists fb', c', s'. split; [exact E|]. split; [|exact H].
    unfold paint_str. rewrite paint_rest_loop, E. reflexivity.
Qed.

(** ** C20 *)
Section NoLatin.
  Context (m : cfg) (F : fontset) (clip : cliprect) (st1 st2 : glyphstyle).
  Context (Hfonts : forall gs, font_ok (F gs)).

  Lemma step_no_latin fb c s :
    no_latin F s -> s <> [] ->
    paint_step m F clip st1 fb c s = paint_step m F clip st2 fb c s /\
    forall fb' c' s', paint_step m F clip st1 fb c s = Ret (fb', c', s') -> no_latin F s'.
  Proof.
    intros Hn Hs. rewrite !paint_step_cases.
    destruct Hn as [|t Ht|ch t off n Hne E1 Hn|ch t off n Hne E1 E2 E3 Hn]; [congruence| | |].
    - cbn [N.eqb Pos.eqb]. split; [reflexivity|]. intros fb' c' s' E. binv.
      match goal with H : slice_from _ _ = _ |- _ =>
        change (slice_from (10 :: t) 1) with (slice_from (10 :: t) (str_len (firstn 1 (10 :: t)))) in H;
        rewrite slice_prefix in H end.
      binv. assumption.
    - pose proof (nl_emoji F ch t off n Hne E1 Hn) as Hall.
      apply N.eqb_neq in Hne. rewrite Hne. unfold step_glyph.
      destruct (xor_char m F fb clip c (ch :: t) Emoji) as [[[fb1 c1] r1]|] eqn:X1; cbn [bind];
        [|split; [reflexivity|discriminate]].
      pose proof (xor_char_inv _ _ _ _ _ _ _ _ _ _ (Hfonts Emoji) X1) as I1.
      destruct r1 as [n1|]; [|destruct I1 as (_ & _ & I1); congruence].
      split; [reflexivity|]. intros fb' c' s' E.
      destruct I1 as [[-> ->]|(o & k & Eg & ->)].
      + change (slice_from (ch :: t) 0) with (Ret (ch :: t)) in E. binv. assumption.
      + rewrite E1 in Eg; injection Eg as <- <-. rewrite slice_prefix in E. binv. assumption.
    - pose proof (nl_hanzi F ch t off n Hne E1 E2 E3 Hn) as Hall.
      apply N.eqb_neq in Hne. rewrite Hne. unfold step_glyph.
      destruct (xor_char m F fb clip c (ch :: t) Emoji) as [[[fb1 c1] r1]|] eqn:X1; cbn [bind];
        [|split; [reflexivity|discriminate]].
      pose proof (xor_char_inv _ _ _ _ _ _ _ _ _ _ (Hfonts Emoji) X1) as I1.
      destruct r1 as [n1|].
      { destruct I1 as [[-> ->]|(o & k & Eg & ->)]; [|congruence].
        split; [reflexivity|]. intros fb' c' s' E.
        change (slice_from (ch :: t) 0) with (Ret (ch :: t)) in E. binv. assumption. }
      destruct I1 as (-> & -> & _).
      destruct (paintable_dec clip) as [Hclip|Hclip];
        [|rewrite xor_char_invalid in X1 by assumption; discriminate].
      rewrite !(xor_char_miss m F fb clip c (ch :: t)) by auto. cbn [bind].
      destruct (xor_char m F fb clip c (ch :: t) Hanzi) as [[[fb3 c3] r3]|] eqn:X3; cbn [bind];
        [|split; [reflexivity|discriminate]].
      pose proof (xor_char_inv _ _ _ _ _ _ _ _ _ _ (Hfonts Hanzi) X3) as I3.
      destruct r3 as [n3|]; [|destruct I3 as (_ & _ & I3); congruence].
      split; [reflexivity|]. intros fb' c' s' E.
      destruct I3 as [[-> ->]|(o & k & Eg & ->)].
      + change (slice_from (ch :: t) 0) with (Ret (ch :: t)) in E. binv. assumption.
      + rewrite E3 in Eg; injection Eg as <- <-. rewrite slice_prefix in E. binv. assumption.
  Qed.

  Lemma paint_loop_no_latin n fb c s :
    no_latin F s -> paint_loop n m F clip st1 fb c s = paint_loop n m F clip st2 fb c s.
  Proof.
    revert fb c s; induction n as [|n IH]; intros fb c s Hs; cbn [paint_loop]; [reflexivity|].
    destruct s as [|ch t]; [reflexivity|].
    destruct (step_no_latin fb c (ch :: t) Hs ltac:(discriminate)) as [E H].
    rewrite <- E. destruct (paint_step m F clip st1 fb c (ch :: t)) as [[[fb1 c1] s1]|]; cbn [bind]; [|reflexivity].
    apply IH. eapply H; reflexivity.
  Qed.
End NoLatin.

Lemma paint_no_latin m F fb clip c st1 st2 s :
  (forall gs, font_ok (F gs)) -> no_latin F s ->
  paint_str m F fb clip c st1 s = paint_str m F fb clip c st2 s.
Proof. intros; apply paint_loop_no_latin; assumption. Qed.

(** ** More iterations than needed change nothing *)
Lemma layout_stable F clip st s : segmented F st s -> forall n k c, fontset_ok F ->
  (length s <= n)%nat -> (length s <= k)%nat -> layout n F clip st c s = layout k F clip st c s.
Proof.
  intros Hs. induction Hs as [|t Ht IH|ch t gs off rest Hne Ech Hr IH|ch d t gs off Hne Ech Ht IH];
    intros n k c HF Hn Hk.
  - destruct n, k; reflexivity.
  - simpl in Hn, Hk. destruct n as [|n]; [lia|]. destruct k as [|k]; [lia|].
    cbn [layout N.eqb Pos.eqb]. apply IH; try assumption; lia.
  - destruct n as [|n]; [simpl in *; lia|]. destruct k as [|k]; [simpl in *; lia|].
    pose proof (choose_shorter F st HF (ch :: t) gs off rest true ltac:(discriminate) Ech) as Hsh.
    destruct Hsh as [Hsh|[? _]]; [|discriminate].
    cbn [layout]. apply N.eqb_neq in Hne; rewrite Hne, Ech. cbv zeta.
    destruct (_ <? _); [reflexivity|].
    rewrite (IH n k) by (assumption || lia). reflexivity.
  - destruct n as [|n]; [simpl in *; lia|]. destruct k as [|k]; [simpl in *; lia|].
    cbn [layout]. apply N.eqb_neq in Hne; rewrite Hne, Ech. cbv zeta.
    destruct (_ <? _); rewrite (IH n k) by (assumption || (simpl in *; lia)); reflexivity.
Qed.

Lemma splits_segmented F st s1 s2 : splits F st s1 s2 -> segmented F st s1.
Proof.
  induction 1 as [|t s2 Ht IH|ch t s2 gs off rest known Hne E1 E2 Hk Hr IH].
  - constructor.
  - constructor; assumption.
  - destruct known; [econstructor; eassumption|].
    destruct Hk as [Hk|Hk]; [discriminate|]. destruct t as [|d t]; [congruence|].
    assert (rest = d :: t) as ->.
    { unfold choose in E1. destruct (glyph_for (F Emoji) _) as [[]|]; [discriminate|].
      destruct (glyph_for (F (latin_set st)) (ch :: d :: t)) as [[]|]; [discriminate|].
      destruct (glyph_for (F Hanzi) _) as [[]|]; [discriminate|].
      injection E1 as _ _ <-. reflexivity. }
    econstructor; eassumption.
Qed.

(** ** C19: layout of a concatenation *)
Lemma layout_concat F clip st s1 s2 : splits F st s1 s2 -> segmented F st s2 -> fontset_ok F ->
  forall n c, (length s1 + length s2 <= n)%nat ->
  fits (length s1) F clip st c s1 = true ->
  layout n F clip st c (s1 ++ s2) =
  let '(ps1, c1) := layout (length s1) F clip st c s1 in
  let '(ps2, c2) := layout (length s2) F clip st c1 s2 in
  (ps1 ++ ps2, c2).
Proof.
  intros Hsp Hseg HF.
  induction Hsp as [s2|t s2 Ht IH|ch t s2 gs off rest known Hne E1 E2 Hk Hr IH]; intros n c Hn Hfit.
  - simpl in *. rewrite (layout_stable F clip st s2 Hseg n (length s2)) by (assumption || lia).
    destruct (layout (length s2) F clip st c s2); reflexivity.
  - simpl in Hn. destruct n as [|n]; [lia|]. cbn [app length layout fits N.eqb Pos.eqb] in *.
    apply IH; [assumption|lia|assumption].
  - simpl in Hn. destruct n as [|n]; [lia|].
    cbn [app length layout fits] in *. apply N.eqb_neq in Hne. rewrite Hne in *.
    rewrite E2, E1 in *. cbv zeta in *.
    set (c1 := seek F clip c (gl_w (F gs) off)) in *.
    apply andb_prop in Hfit as [Hf1 Hf2].
    destruct (N.ltb_spec (py (cmax clip)) (p_y (placed_at F gs off c1))); [lia|].
    assert (Hlen : (length rest <= length t)%nat).
    { destruct (choose_shorter F st HF (ch :: t) gs off rest known ltac:(discriminate) E1) as [Hsh|(-> & -> & Hl)].
      - simpl in Hsh; lia.
      - destruct Hk as [Hk|Hk]; [discriminate|]. destruct t; [congruence|simpl in Hl; lia]. }
    pose proof (splits_segmented _ _ _ _ Hr) as Hsr.
    rewrite (layout_stable F clip st rest Hsr (length t) (length rest)) by (assumption || lia).
    assert (Hf3 : fits (length rest) F clip st (after F gs off c1) rest = true).
    { clear -Hf2 Hlen. revert Hf2 Hlen. generalize (length t) (length rest) (after F gs off c1).
      intros n k. revert k rest; induction n as [|n IH]; intros k s c' H Hk.
      - destruct k; [reflexivity|lia].
      - destruct k as [|k]; [reflexivity|]. cbn [fits] in *. destruct s as [|ch s]; [reflexivity|].
        destruct (ch =? 10); [apply IH; [assumption|lia]|].
        destruct (choose F st (ch :: s)) as [[[g o] r] kn]. cbv zeta in *.
        apply andb_prop in H as [H1 H2]. rewrite H1. apply IH; [assumption|lia]. }
    rewrite (IH Hseg n (after F gs off c1)) by (assumption || lia).
    destruct (layout (length rest) F clip st (after F gs off c1) rest) as [ps1 c2].
    destruct (layout (length s2) F clip st c2 s2) as [ps2 c3]. reflexivity.
Qed.

Lemma inked_app F clip a b x y : inked F clip (a ++ b) x y = xorb (inked F clip a x y) (inked F clip b x y).
Proof. induction a as [|p a IH]; cbn [app inked]; [destruct (inked F clip b x y); reflexivity|]. rewrite IH, xorb_assoc. reflexivity. Qed.

Lemma paint_concat m F fb clip c st s1 s2 fb1 c1 :
  cfg_ok m -> fontset_ok F -> is_frbuf fb -> paintable clip -> 36 <= clip_width clip ->
  splits F st s1 s2 -> segmented F st s2 -> fits (length s1) F clip st c s1 = true ->
  cursor_fits m F c (s1 ++ s2) ->
  paint_str m F fb clip c st s1 = Ret (fb1, c1) -> cursor_fits m F c1 s2 ->
  paint_str m F fb clip c st (s1 ++ s2) = paint_str m F fb1 clip c1 st s2.
Proof.
  intros Hm HF Hfb Hclip Hw Hsp Hseg Hfit Hc E1 Hc1.
  assert (Hc0 : cursor_fits m F c s1).
  { destruct Hc as [A B]; split; [assumption|]. rewrite str_len_app in B. nia. }
  pose proof (paint_refines m F fb clip c st s1 Hm HF Hfb Hclip Hw Hc0) as R1.
  pose proof (paint_refines m F fb clip c st (s1 ++ s2) Hm HF Hfb Hclip Hw Hc) as R.
  pose proof (str_len_ge s1). pose proof (str_len_ge s2).
  rewrite (layout_concat F clip st s1 s2 Hsp Hseg HF) in R;
    [|rewrite str_len_app; lia|assumption].
  rewrite (layout_stable F clip st s1 (splits_segmented _ _ _ _ Hsp) _ (length s1)) in R1 by (assumption || lia).
  destruct (layout (length s1) F clip st c s1) as [ps1 c1'].
  destruct R1 as (fb1' & E1' & Hfb1 & Hp1). rewrite E1 in E1'. injection E1' as <- <-.
  pose proof (paint_refines m F fb1 clip c1 st s2 Hm HF Hfb1 Hclip Hw Hc1) as R2.
  rewrite (layout_stable F clip st s2 Hseg _ (length s2)) in R2 by (assumption || lia).
  destruct (layout (length s2) F clip st c1 s2) as [ps2 c2].
  destruct R as (fbA & EA & HA & PA). destruct R2 as (fbB & EB & HB & PB).
  rewrite EA, EB. f_equal. f_equal. apply pixel_ext; [assumption|assumption|].
  intros x y Hx Hy. rewrite PA, PB, Hp1 by assumption. rewrite inked_app, xorb_assoc. reflexivity.
Qed.

(** ** C21 *)
Lemma layout_shown F clip st s s' : shown F st s s' -> fontset_ok F ->
  (forall t, exists off, choose F st (0xFFFD :: t) = (latin_set st, off, t, true) /\
     forall u gs o r, choose F st u = (gs, o, r, false) -> gs = latin_set st /\ o = off) ->
  forall n k c, (length s <= n)%nat -> (length s' <= k)%nat ->
  fits (length s) F clip st c s = true ->
  layout n F clip st c s = layout k F clip st c s'.
Proof.
  intros Hsh HF Hrep.
  assert (Hmono : forall n k c s, (k <= n)%nat -> fits n F clip st c s = true -> fits k F clip st c s = true).
  { clear. induction n as [|n IH]; intros k c s Hk H.
    - destruct k; [reflexivity|lia].
    - destruct k as [|k]; [reflexivity|]. cbn [fits] in *. destruct s as [|ch s]; [reflexivity|].
      destruct (ch =? 10); [apply IH; [lia|assumption]|].
      destruct (choose F st (ch :: s)) as [[[g o] r] kn]. cbv zeta in *.
      apply andb_prop in H as [H1 H2]. rewrite H1. apply IH; [lia|assumption]. }
  induction Hsh as [|t t' Ht IH|ch a rest rest' gs off Hne E1 E2 Hr IH|ch d t t' gs off Hne E1 Ht IH];
    intros n k c Hn Hk Hfit.
  - destruct n, k; reflexivity.
  - simpl in Hn, Hk. destruct n as [|n]; [lia|]. destruct k as [|k]; [lia|].
    cbn [layout fits length N.eqb Pos.eqb] in *. apply IH; [lia|lia|assumption].
  - simpl in Hn, Hk. rewrite app_length in Hn, Hk.
    destruct n as [|n]; [lia|]. destruct k as [|k]; [lia|].
    cbn [layout fits length] in *. apply N.eqb_neq in Hne. rewrite Hne in *.
    rewrite E1, E2 in *. cbv zeta in *.
    apply andb_prop in Hfit as [Hf1 Hf2].
    destruct (_ <? _); [reflexivity|].
    rewrite (IH n k); [reflexivity|lia|lia|].
    eapply Hmono; [|exact Hf2]. rewrite app_length; lia.
  - destruct (Hrep t') as (o & E2 & Ho). destruct (Ho _ _ _ _ E1) as [-> ->].
    cbn [length] in Hn, Hk. destruct n as [|n]; [lia|]. destruct k as [|k]; [lia|].
    cbn [layout]. change (0xFFFD =? 10) with false.
    cbn [fits length] in Hfit. apply N.eqb_neq in Hne. rewrite Hne in *. rewrite E1 in *. rewrite E2.
    cbv zeta in *. apply andb_prop in Hfit as [Hf1 Hf2].
    match goal with |- context [if ?b then _ else _] => destruct b eqn:Eb end; [exfalso; lia|].
    rewrite (IH n k); [reflexivity|simpl; lia|lia|exact Hf2].
Qed.

Lemma paint_shown m F fb clip c st s s' :
  cfg_ok m -> fontset_ok F -> is_frbuf fb -> paintable clip -> 36 <= clip_width clip ->
  (forall t, exists off, choose F st (0xFFFD :: t) = (latin_set st, off, t, true) /\
     forall u gs o r, choose F st u = (gs, o, r, false) -> gs = latin_set st /\ o = off) ->
  shown F st s s' -> fits (length s) F clip st c s = true ->
  cursor_fits m F c s -> cursor_fits m F c s' ->
  paint_str m F fb clip c st s = paint_str m F fb clip c st s'.
Proof.
  intros Hm HF Hfb Hclip Hw Hrep Hsh Hfit Hc Hc'.
  pose proof (paint_refines m F fb clip c st s Hm HF Hfb Hclip Hw Hc) as R.
  pose proof (paint_refines m F fb clip c st s' Hm HF Hfb Hclip Hw Hc') as R'.
  pose proof (str_len_ge s). pose proof (str_len_ge s').
  rewrite (layout_shown F clip st s s' Hsh HF Hrep _ (N.to_nat (str_len s'))) in R by (assumption || lia).
  destruct (layout (N.to_nat (str_len s')) F clip st c s') as [ps c2].
  destruct R as (fbA & EA & HA & PA). destruct R' as (fbB & EB & HB & PB).
  rewrite EA, EB. f_equal. f_equal. apply pixel_ext; [assumption|assumption|].
  intros x y Hx Hy. rewrite PA, PB by assumption. reflexivity.
Qed.

(** A trailing unknown character is painted again for every iteration left *)
Fixpoint place_n (k : nat) (F : fontset) (clip : cliprect) (gs : glyphset) (off : N) (c : cursor)
  : list placed * cursor :=
  match k with
  | O => ([], c)
  | S k' =>
      let c1 := seek F clip c (gl_w (F gs) off) in
      let '(ps, c') := place_n k' F clip gs off (after F gs off c1) in
      (placed_at F gs off c1 :: ps, c')
  end.

Lemma layout_last_unknown F clip st u gs off n c :
  u <> 10 -> choose F st [u] = (gs, off, [u], false) ->
  fits n F clip st c [u] = true ->
  layout n F clip st c [u] = place_n n F clip gs off c.
Proof.
  intros Hu E. revert c; induction n as [|n IH]; intros c Hf; [reflexivity|].
  cbn [layout fits place_n] in *. apply N.eqb_neq in Hu. rewrite Hu, E in *. cbv zeta in *.
  apply andb_prop in Hf as [H1 H2].
  match goal with |- context [if ?b then _ else _] => destruct b eqn:Eb end; [exfalso; lia|].
  rewrite IH by assumption. reflexivity.
Qed.

(** ** C22 *)
Lemma paint_rows m F fb clip c st s fb' c' :
  cfg_ok m -> fontset_ok F -> is_frbuf fb -> px (cmin clip) < 320 ->
  cursor_fits m F c s -> paint_str m F fb clip c st s = Ret (fb', c') ->
  forall x y, x < STORED_WIDTH -> y < LINES ->
    y < py (cmin clip) \/ py (cmax clip) <= y -> pixel fb' x y = pixel fb x y.
Proof.
  intros Hm HF Hfb Hw Hc E x y Hx Hy Hout.
  destruct (paintable_dec clip) as [Hclip|Hclip].
  - assert (Hfit : clip_fits clip) by (left; assumption).
    destruct (paint_str_any m F clip st Hm HF Hclip Hfit fb c s Hfb Hc) as (fb2 & E2 & Hfb2 & Hb).
    rewrite E in E2. injection E2 as <- _.
    pose proof (layout_any_placed F clip st HF (N.to_nat (str_len s)) c s) as Hp.
    rewrite !pixel_lbit, Hb.
    rewrite (lin_inked_inked F clip Hclip) by (assumption || lia).
    replace (inked F clip _ x y) with false; [apply xorb_false_r|].
    clear -Hout. symmetry. induction (fst _) as [|p ps IH]; [reflexivity|].
    cbn [inked]. rewrite IH. unfold ink. destruct (in_rect _ _ _ _ x y); [|reflexivity].
    destruct (glyph_pixel _ _ _ _); [|rewrite !andb_false_r; reflexivity]. rewrite xorb_false_r. lia.
  - rewrite paint_invalid in E by assumption.
    destruct (newlines _ _ _ _ _); cbn [bind] in E; [|discriminate].
    injection E as <- _. reflexivity.
Qed.

Lemma paint_stops m F fb clip c st s gs off rest :
  cfg_ok m -> fontset_ok F -> is_frbuf fb -> paintable clip -> 36 <= clip_width clip ->
  cursor_fits m F c s -> s <> [] -> nth_error s 0 <> Some 10 ->
  choose F st s = (gs, off, rest, true) ->
  py (cmax clip) < p_y (placed_at F gs off (seek F clip c (gl_w (F gs) off))) ->
  paint_str m F fb clip c st s = Ret (fb, seek F clip c (gl_w (F gs) off)).
Proof.
  intros Hm HF Hfb Hclip Hw Hc Hs Hnl Ech Hb.
  pose proof (paint_refines m F fb clip c st s Hm HF Hfb Hclip Hw Hc) as R.
  destruct s as [|ch t]; [congruence|].
  pose proof (str_len_ge (ch :: t)) as Hl. cbn [length] in Hl.
  destruct (N.to_nat (str_len (ch :: t))) as [|n] eqn:En; [lia|].
  cbn [layout] in R. destruct (N.eqb_spec ch 10) as [->|Hne]; [exfalso; apply Hnl; reflexivity|].
  rewrite Ech in R. cbv zeta in R.
  match type of R with context [if ?b then _ else _] => replace b with true in R by lia end.
  cbv iota beta in R. destruct R as (fb' & E & Hfb' & Hp). rewrite E. f_equal. f_equal.
  apply pixel_ext; [assumption|assumption|].
  intros x y Hx Hy. rewrite Hp by assumption. apply xorb_false_r.
Qed.

(** ** C13, C03 *)
Lemma paint_one_any m F fb clip c st s gs off :
  cfg_ok m -> fontset_ok F -> is_frbuf fb -> paintable clip -> px (cmin clip) < 320 ->
  cursor_fits m F c s -> s <> [] -> nth_error s 0 <> Some 10 ->
  choose F st s = (gs, off, [], true) ->
  let c1 := seek F clip c (gl_w (F gs) off) in
  let x0 := cx c1 + 1 in
  let y0 := cy c1 + gl_y (F gs) off in
  y0 <= py (cmax clip) ->
  exists fb', paint_str m F fb clip c st s = Ret (fb', after F gs off c1) /\ is_frbuf fb' /\
    forall x y, x < STORED_WIDTH -> y < LINES ->
      pixel fb' x y = xorb (pixel fb x y)
        (in_rect x0 y0 (x0 + gl_w (F gs) off) (y0 + gl_h (F gs) off) x y
         && (py (cmin clip) <=? y) && (y <? py (cmax clip))
         && glyph_pixel (F gs) off (x - x0) (y - y0)).
Proof.
  intros Hm HF Hfb Hclip Hw Hc Hs Hnl Ech c1 x0 y0 Hb.
  assert (Hfit : clip_fits clip) by (left; assumption).
  destruct (paint_str_any m F clip st Hm HF Hclip Hfit fb c s Hfb Hc) as (fb' & E & Hfb' & Hp).
  pose proof (layout_any_placed F clip st HF (N.to_nat (str_len s)) c s) as Hpl.
  assert (El : layout_any F clip st (N.to_nat (str_len s)) c s = ([placed_at F gs off c1], after F gs off c1)).
  { destruct s as [|ch t]; [congruence|].
    pose proof (str_len_ge (ch :: t)) as Hl. cbn [length] in Hl.
    destruct (N.to_nat (str_len (ch :: t))) as [|n] eqn:En; [lia|].
    cbn [layout_any]. destruct (N.eqb_spec ch 10) as [->|Hne]; [exfalso; apply Hnl; reflexivity|].
    rewrite Ech. cbv zeta. fold c1.
    destruct (N.ltb_spec (py (cmax clip)) (p_y (placed_at F gs off c1))) as [Hb'|Hb'];
      [unfold placed_at, y0 in *; csimpl; lia|].
    destruct n; reflexivity. }
  rewrite El in *. csimpl. exists fb'. split; [exact E|split; [assumption|]].
  intros x y Hx Hy. rewrite !pixel_lbit, Hp.
  rewrite (lin_inked_inked F clip Hclip) by (assumption || lia).
  cbn [inked]. rewrite xorb_false_r. reflexivity.
Qed.

(** ** C15, C18 for paint_str *)
Lemma paint_columns m F fb clip c st s :
  cfg_ok m -> fontset_ok F -> is_frbuf fb -> paintable clip -> 36 <= clip_width clip ->
  cursor_fits m F c s ->
  exists ps fb' c', paint_str m F fb clip c st s = Ret (fb', c') /\
    Forall (inside_columns F clip) ps /\
    (s <> [] -> px (cmin clip) <= cx c' < px (cmax clip)) /\
    forall x y, x < STORED_WIDTH -> y < LINES ->
      pixel fb' x y = xorb (pixel fb x y) (inked F clip ps x y).
Proof.
  intros Hm HF Hfb Hclip Hw Hc.
  pose proof (paint_refines m F fb clip c st s Hm HF Hfb Hclip Hw Hc) as R.
  pose proof (layout_columns F clip st (N.to_nat (str_len s)) c s HF Hclip Hw) as H1.
  pose proof (layout_cursor_column F clip st (N.to_nat (str_len s)) c s HF Hclip Hw) as H2.
  destruct (layout _ F clip st c s) as [ps c'].
  destruct R as (fb' & E & Hfb' & Hp). exists ps, fb', c'. csimpl.
  split; [exact E|split; [exact H1|split; [|exact Hp]]].
  intros Hs. apply H2. right. split; [assumption|].
  destruct s as [|ch t]; [congruence|]. pose proof (str_len_ge (ch :: t)) as Hl. cbn [length] in Hl. lia.
Qed.

Lemma paint_line_height m F fb clip c st s :
  cfg_ok m -> fontset_ok F -> is_frbuf fb -> paintable clip -> 36 <= clip_width clip ->
  cursor_fits m F c s ->
  exists ps fb' c', layout (N.to_nat (str_len s)) F clip st c s = (ps, c') /\
    paint_str m F fb clip c st s = Ret (fb', c') /\
    line_height c' = line_max F (cy c') ps (if cy c' =? cy c then line_height c else 0).
Proof.
  intros Hm HF Hfb Hclip Hw Hc.
  pose proof (paint_refines m F fb clip c st s Hm HF Hfb Hclip Hw Hc) as R.
  pose proof (layout_line_height F clip st (N.to_nat (str_len s)) c s) as H.
  rewrite (layout_any_layout F clip st HF Hclip) in H by assumption.
  destruct (layout _ F clip st c s) as [ps c'].
  destruct R as (fb' & E & _). eauto 6.
Qed.
