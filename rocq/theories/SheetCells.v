(** * Cutting a sheet into cells, and the check of all glyph records *)
From Coq Require Import ZArith.
From Verif Require Import PrimFacts Str M3Hash FontDefs SpecPaint SpecCodegen SpecSheet Codegen.
From Verif Require Import PackProofs TrimProofs CgIndex CgFont CgGenerate SheetCheck.

(** The image of a sheet; what is outside of it does not matter (image types of the
    Go standard library differ there) *)
Definition sheet_image (width : N) (rows : list N) (outside : Z -> Z -> N) : image :=
  Image (Z.of_nat (length rows))
    (fun x y => if ((0 <=? x) && (x <? Z.of_N width) && (0 <=? y) && (y <? Z.of_nat (length rows)))%Z%bool
                then (if black rows (Z.to_nat x) (Z.to_nat y) then 0 else 0xFFFF)
                else outside x y).

Lemma skip_skip {A} n : forall m (l : list A), skipn n (skipn m l) = skipn (n + m) l.
Proof.
  intros m. revert n. induction m as [|m IH]; intros n l.
  - rewrite Nat.add_0_r. reflexivity.
  - rewrite Nat.add_succ_r. destruct l as [|a l]; [cbn [skipn]; apply skipn_nil|]. cbn [skipn]. apply IH.
Qed.
Lemma skip_nth {A} (d : A) n : forall l i, nth i (skipn n l) d = nth (n + i) l d.
Proof.
  induction n as [|n IH]; intros [|a l] i; cbn [skipn Nat.add nth]; try reflexivity.
  - destruct i; reflexivity.
  - apply IH.
Qed.
Lemma first_nth {A} (d : A) n : forall l i, (i < n)%nat -> nth i (firstn n l) d = nth i l d.
Proof.
  induction n as [|n IH]; intros [|a l] i L; cbn [firstn nth]; try lia; try reflexivity.
  destruct i as [|i]; [reflexivity|]. apply IH. lia.
Qed.

(** ** Cells of a row, of a band of rows, of all rows *)
Fixpoint cells (n : nat) (step mask row : N) : list N :=
  match n with
  | O => []
  | S k => N.land row mask :: cells k step mask (N.shiftr row step)
  end.
Lemma cells_nth n step mask : forall row c, (c < n)%nat ->
  nth c (cells n step mask row) 0 = N.land (N.shiftr row (N.of_nat c * step)) mask.
Proof.
  induction n as [|n IH]; intros row c L; [lia|]. cbn [cells]. destruct c as [|c]; cbn [nth].
  - rewrite N.mul_0_l, N.shiftr_0_r. reflexivity.
  - rewrite IH by lia. rewrite N.shiftr_shiftr. do 2 f_equal. lia.
Qed.
Lemma cells_length n step mask row : length (cells n step mask row) = n.
Proof. revert row; induction n as [|n IH]; intros row; cbn [cells length]; [reflexivity|]. rewrite IH. reflexivity. Qed.

Fixpoint zip_cons (a : list N) (b : list (list N)) : list (list N) :=
  match a, b with
  | x :: a', y :: b' => (x :: y) :: zip_cons a' b'
  | _, _ => []
  end.
Lemma zip_cons_length a : forall b, length (zip_cons a b) = Nat.min (length a) (length b).
Proof. induction a as [|x a IH]; intros [|y b]; cbn [zip_cons length Nat.min]; auto. Qed.
Lemma zip_cons_nth a : forall b c, (c < length a)%nat -> (c < length b)%nat ->
  nth c (zip_cons a b) [] = nth c a 0 :: nth c b [].
Proof.
  induction a as [|x a IH]; intros [|y b] c La Lb; simpl in *; try lia.
  destruct c as [|c]; [reflexivity|]. apply IH; lia.
Qed.

Definition band (n : nat) (step mask : N) (rows : list N) : list (list N) :=
  fold_right (fun row acc => zip_cons (cells n step mask row) acc) (repeat [] n) rows.
Lemma band_length n step mask rows : length (band n step mask rows) = n.
Proof.
  induction rows as [|row rows IH]; cbn [band fold_right]; [apply repeat_length|].
  rewrite zip_cons_length, cells_length. fold (band n step mask rows). lia.
Qed.
Lemma band_nth n step mask rows c : (c < n)%nat ->
  nth c (band n step mask rows) [] = map (fun row => N.land (N.shiftr row (N.of_nat c * step)) mask) rows.
Proof.
  intros L. induction rows as [|row rows IH]; cbn [band fold_right map].
  - rewrite nth_repeat. reflexivity.
  - fold (band n step mask rows). rewrite zip_cons_nth by (rewrite ?cells_length, ?band_length; exact L).
    rewrite cells_nth by exact L. rewrite IH. reflexivity.
Qed.

Fixpoint bands (count n size step : nat) (mask : N) (rows : list N) : list (list (list N)) :=
  match count with
  | O => []
  | S k => band n (N.of_nat step) mask (firstn size rows) :: bands k n size step mask (skipn step rows)
  end.
Lemma bands_nth count n size step mask : forall rows r, (r < count)%nat ->
  nth r (bands count n size step mask rows) [] = band n (N.of_nat step) mask (firstn size (skipn (r * step) rows)).
Proof.
  induction count as [|k IH]; intros rows r L; [lia|]. cbn [bands]. destruct r as [|r]; cbn [nth].
  - reflexivity.
  - rewrite IH by lia. rewrite skip_skip. do 3 f_equal. lia.
Qed.

(** ** The layout of a sheet *)
Definition g_border (f : fontspec) : nat := Z.to_nat (fs_border f).
Definition g_step (f : fontspec) : nat := Z.to_nat (fs_size f + fs_gutter f).
Definition g_cols (f : fontspec) : nat := Z.to_nat (fs_cols f).
Definition g_count (f : fontspec) (rows : list N) : nat := (length rows - g_border f) / g_step f.

Definition layout_okb (f : fontspec) (width : N) (rows : list N) : bool :=
  ((0 <=? fs_border f) && (0 <? fs_size f + fs_gutter f) && (0 <=? fs_cols f))%Z
  && (0 <? cell_size f)%nat && (cell_size f <? 256)%nat
  && (N.of_nat (g_cols f * g_step f) <=? width).

Definition table (f : fontspec) (rows : list N) : list (list (list N)) :=
  bands (g_count f rows) (g_cols f) (cell_size f) (g_step f) (N.ones (N.of_nat (cell_size f)))
    (map (fun row => N.shiftr row (N.of_nat (g_border f))) (skipn (g_border f) rows)).

Lemma map_skipn {A B} (g : A -> B) n : forall l, map g (skipn n l) = skipn n (map g l).
Proof. induction n as [|n IH]; intros [|a l]; cbn [skipn map]; auto. Qed.
Lemma map_firstn {A B} (g : A -> B) n : forall l, map g (firstn n l) = firstn n (map g l).
Proof. induction n as [|n IH]; intros [|a l]; cbn [firstn map]; f_equal; auto. Qed.

Section Layout.
  Variables (f : fontspec) (width : N) (rows : list N) (outside : Z -> Z -> N).
  Hypothesis Hl : layout_okb f width rows = true.
  Let img := sheet_image width rows outside.

  Lemma layout : (0 <= fs_border f)%Z /\ (0 < fs_size f + fs_gutter f)%Z /\ (0 <= fs_cols f)%Z /\
    (0 < cell_size f < 256)%nat /\ (g_step f = cell_size f + g_border f)%nat /\
    N.of_nat (g_cols f * g_step f) <= width.
  Proof.
    unfold layout_okb in Hl. rewrite !andb_true_iff in Hl. destruct Hl as [[[[[L1 L2] L3] L4] L5] L6].
    unfold cell_size, g_step, g_border in *. repeat split; lia.
  Qed.

  Definition cell_at (r c : nat) : list N := nth c (nth r (table f rows) []) [].

  Lemma cell_at_eq r c : (r < g_count f rows)%nat -> (c < g_cols f)%nat ->
    cell_at r c = map (fun row => N.land (N.shiftr row (N.of_nat (g_border f + c * g_step f))) (N.ones (N.of_nat (cell_size f))))
                      (firstn (cell_size f) (skipn (g_border f + r * g_step f) rows)).
  Proof.
    intros Hr Hc. unfold cell_at, table. rewrite bands_nth by exact Hr. rewrite band_nth by exact Hc.
    rewrite <- map_skipn, <- map_firstn, map_map, skip_skip, (Nat.add_comm (r * _)).
    apply map_ext. intros row. rewrite N.shiftr_shiftr. do 2 f_equal. lia.
  Qed.

  Lemma fits r : (r < g_count f rows)%nat -> (g_border f + r * g_step f + cell_size f <= length rows)%nat.
  Proof.
    intros Hr. destruct layout as (L1 & L2 & _ & L4 & L5 & _). unfold g_count in Hr.
    pose proof (Nat.div_mod (length rows - g_border f) (g_step f) ltac:(lia)) as D.
    set (q := ((length rows - g_border f) / g_step f)%nat) in *.
    assert (g_step f * (r + 1) <= g_step f * q)%nat by (apply Nat.mul_le_mono_l; lia). nia.
  Qed.

  Lemma cell_at_length r c : (r < g_count f rows)%nat -> (c < g_cols f)%nat -> length (cell_at r c) = cell_size f.
  Proof.
    intros Hr Hc. rewrite cell_at_eq by assumption. rewrite map_length, firstn_length, skipn_length.
    pose proof (fits r Hr). lia.
  Qed.

  Lemma cell_at_bit r c y x : (r < g_count f rows)%nat -> (c < g_cols f)%nat ->
    N.testbit (nth y (cell_at r c) 0) (N.of_nat x) =
    (y <? cell_size f)%nat && (x <? cell_size f)%nat && black rows (g_border f + c * g_step f + x) (g_border f + r * g_step f + y).
  Proof.
    intros Hr Hc. destruct (Nat.ltb_spec y (cell_size f)) as [Ly|Ly].
    - rewrite cell_at_eq by assumption.
      set (h := fun row => N.land (N.shiftr row (N.of_nat (g_border f + c * g_step f))) (N.ones (N.of_nat (cell_size f)))).
      rewrite (nth_indep _ 0 (h 0)).
      2:{ rewrite map_length, firstn_length, skipn_length. pose proof (fits r Hr). lia. }
      rewrite map_nth, first_nth by exact Ly. rewrite skip_nth. unfold h.
      rewrite N.land_spec, N.shiftr_spec'. unfold black. cbn [andb].
      destruct (Nat.ltb_spec x (cell_size f)) as [Lx|Lx].
      + rewrite N.ones_spec_low by lia. rewrite andb_true_r. cbn [andb]. f_equal. lia.
      + rewrite N.ones_spec_high by lia. rewrite andb_false_r. reflexivity.
    - rewrite nth_overflow by (rewrite cell_at_length by assumption; exact Ly). rewrite N.bits_0. reflexivity.
  Qed.

  Lemma grid_cell_bit row col y x : (0 <= row)%Z -> (0 <= col < fs_cols f)%Z -> (Z.to_nat row < g_count f rows)%nat ->
    is_set (grid_cell img f row col) y x = N.testbit (nth y (cell_at (Z.to_nat row) (Z.to_nat col)) 0) (N.of_nat x).
  Proof.
    intros Hr Hc Hn. assert (Hc' : (Z.to_nat col < g_cols f)%nat) by (unfold g_cols; lia).
    rewrite cell_at_bit by assumption.
    destruct (Nat.ltb_spec y (cell_size f)) as [Ly|Ly].
    2:{ destruct (is_set _ y x) eqn:S; [|reflexivity]. apply (set_inside _ _ _ _ _ (cell_rect img f row col)) in S. lia. }
    destruct (Nat.ltb_spec x (cell_size f)) as [Lx|Lx].
    2:{ destruct (is_set _ y x) eqn:S; [|reflexivity]. apply (set_inside _ _ _ _ _ (cell_rect img f row col)) in S. lia. }
    cbn [andb]. rewrite cell_pixel by assumption.
    destruct layout as (L1 & L2 & L3 & L4 & L5 & L6). pose proof (fits _ Hn) as Fi.
    assert (EX : (fs_border f + col * (fs_size f + fs_gutter f) + Z.of_nat x =
                  Z.of_nat (g_border f + Z.to_nat col * g_step f + x))%Z).
    { unfold g_border, g_step. rewrite !Nat2Z.inj_add, Nat2Z.inj_mul, !Z2Nat.id by lia. reflexivity. }
    assert (EY : (fs_border f + row * (fs_size f + fs_gutter f) + Z.of_nat y =
                  Z.of_nat (g_border f + Z.to_nat row * g_step f + y))%Z).
    { unfold g_border, g_step. rewrite !Nat2Z.inj_add, Nat2Z.inj_mul, !Z2Nat.id by lia. reflexivity. }
    rewrite EX, EY. set (X := (g_border f + Z.to_nat col * g_step f + x)%nat).
    set (Y := (g_border f + Z.to_nat row * g_step f + y)%nat).
    assert (HX : N.of_nat X < width).
    { assert (X < g_cols f * g_step f)%nat; [|lia]. unfold X.
      assert (Z.to_nat col * g_step f + g_step f <= g_cols f * g_step f)%nat; [|lia].
      replace (Z.to_nat col * g_step f + g_step f)%nat with ((Z.to_nat col + 1) * g_step f)%nat by lia.
      apply Nat.mul_le_mono_r. lia. }
    assert (HY : (Y < length rows)%nat) by (unfold Y; lia).
    unfold img, sheet_image. cbn [img_red].
    replace ((0 <=? Z.of_nat X) && (Z.of_nat X <? Z.of_N width) && (0 <=? Z.of_nat Y) && (Z.of_nat Y <? Z.of_nat (length rows)))%Z
      with true by lia.
    rewrite !Nat2Z.id. destruct (black rows X Y); reflexivity.
  Qed.
End Layout.

(** ** All records *)
Definition record_size (hdr : N) : nat :=
  N.to_nat (N.shiftr (N.shiftr hdr 16 * N.land (N.shiftr hdr 8) 255 + 31) 5).

Fixpoint records (n : nat) (data : list N) : option (list (list N)) :=
  match n, data with
  | O, [] => Some []
  | S k, hdr :: rest =>
      match records k (skipn (record_size hdr) rest) with
      | Some rs => Some ((hdr :: firstn (record_size hdr) rest) :: rs)
      | None => None
      end
  | _, _ => None
  end.
Lemma records_concat n : forall data rs, records n data = Some rs -> concat rs = data.
Proof.
  induction n as [|k IH]; intros [|hdr rest] rs E; cbn [records] in E; try discriminate.
  - injection E as <-. reflexivity.
  - destruct (records k _) as [rs'|] eqn:E'; [|discriminate]. injection E as <-. cbn [concat app].
    rewrite (IH _ _ E'). rewrite firstn_skipn. reflexivity.
Qed.

Definition record_okb (f : fontspec) (count : Z) (t : list (list (list N))) (cs : charspec) (r : list N) : bool :=
  match r with
  | [] => false
  | hdr :: ws =>
      ((0 <=? cs_row cs) && (cs_row cs <? count) && (0 <=? cs_col cs) && (cs_col cs <? fs_cols f))%Z
      && glyph_okb (cell_size f) (trim_limits f (cs_row cs) (cs_col cs))
           (nth (Z.to_nat (cs_col cs)) (nth (Z.to_nat (cs_row cs)) t []) []) hdr ws
  end.

Fixpoint all2 {A B} (g : A -> B -> bool) (a : list A) (b : list B) : bool :=
  match a, b with
  | [], [] => true
  | x :: a', y :: b' => g x y && all2 g a' b'
  | _, _ => false
  end.

Definition records_okb (f : fontspec) (rows : list N) (csl : list charspec) (rs : list (list N)) : bool :=
  let t := table f rows in
  all2 (record_okb f (Z.of_nat (g_count f rows)) t) csl rs.

Lemma records_sound f width rows outside csl rs :
  layout_okb f width rows = true -> records_okb f rows csl rs = true ->
  exists pl, pattern_list (sheet_image width rows outside) f csl = Ret pl /\ map bp_words pl = rs.
Proof.
  intros Hl. unfold records_okb. cbv zeta. revert rs.
  induction csl as [|cs csl IH]; intros [|r rs] H; cbn [all2] in H; try discriminate.
  - exists []. split; reflexivity.
  - apply andb_prop in H. destruct H as [H1 H2]. destruct (IH _ H2) as (pl & E & Ew).
    destruct r as [|hdr ws]; [discriminate|]. unfold record_okb in H1. rewrite !andb_true_iff in H1.
    destruct H1 as [[[[R1 R2] R3] R4] G].
    destruct (layout f width rows Hl) as (L1 & L2 & L3 & L4 & L5 & L6).
    assert (Hn : (Z.to_nat (cs_row cs) < g_count f rows)%nat) by lia.
    change (nth (Z.to_nat (cs_col cs)) (nth (Z.to_nat (cs_row cs)) (table f rows) []) [])
      with (cell_at f rows (Z.to_nat (cs_row cs)) (Z.to_nat (cs_col cs))) in G.
    destruct (glyph_sound (grid_cell (sheet_image width rows outside) f (cs_row cs) (cs_col cs))
                (cell_at f rows (Z.to_nat (cs_row cs)) (Z.to_nat (cs_col cs))) (cell_size f)
                (trim_limits f (cs_row cs) (cs_col cs))) with (hdr := hdr) (ws := ws) as (m' & y & Et & Ec).
    + apply cell_rect.
    + apply cell_nonneg.
    + apply (cell_at_length f width rows Hl); [exact Hn|unfold g_cols; lia].
    + intros r c. apply (grid_cell_bit f width rows outside Hl); try lia.
    + exact L4.
    + exact G.
    + exists (BlitPattern (hdr :: ws) cs :: pl). split; [|cbn [map bp_words]; rewrite Ew; reflexivity].
      unfold pattern_list in *. cbn [map_res]. unfold new_blit_pattern at 1.
      destruct (Z.eqb_spec (fs_size f + fs_gutter f) 0); [lia|].
      assert (Eq : Z.quot (img_max_y (sheet_image width rows outside) - fs_border f) (fs_size f + fs_gutter f)
                   = Z.of_nat (g_count f rows)).
      { cbn [sheet_image img_max_y]. pose proof (fits f width rows Hl _ Hn) as Fi.
        unfold g_count. rewrite Nat2Z.inj_div by lia. rewrite Nat2Z.inj_sub by lia.
        unfold g_border, g_step in *. rewrite !Z2Nat.id by lia. apply Z.quot_div_nonneg; lia. }
      rewrite Eq.
      replace ((cs_row cs <? 0) || (Z.of_nat (g_count f rows) <=? cs_row cs) || (cs_col cs <? 0) || (fs_cols f <=? cs_col cs))%Z%bool
        with false by lia.
      rewrite Et. cbn [bind]. rewrite Ec. cbn [bind]. rewrite E. reflexivity.
Qed.
