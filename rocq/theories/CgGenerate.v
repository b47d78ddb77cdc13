(** * From sprite sheet to font *)
From Coq Require Import ZArith Permutation Sorted.
From Verif Require Import PrimFacts Str M3Hash FontDefs SpecPaint SpecCodegen Codegen.
From Verif Require Import LookupProofs SortProofs PackProofs TrimProofs CgIndex CgFont.

(** ** Grid cells *)
Lemma zrange_length lo hi : length (zrange lo hi) = Z.to_nat (hi - lo).
Proof. unfold zrange. rewrite map_length, seq_length. reflexivity. Qed.
Lemma zrange_nth lo hi i : (i < Z.to_nat (hi - lo))%nat -> nth i (zrange lo hi) 0%Z = (lo + Z.of_nat i)%Z.
Proof.
  intros L. unfold zrange.
  rewrite (nth_indep _ 0%Z (lo + Z.of_nat 0)%Z) by (rewrite map_length, seq_length; exact L).
  rewrite (map_nth (fun k => (lo + Z.of_nat k)%Z)), seq_nth by exact L. reflexivity.
Qed.

(** Width and height of a cell in pixels *)
Definition cell_size (f : fontspec) : nat := Z.to_nat (fs_size f + fs_gutter f - fs_border f).

Lemma cell_rect img f row col : rect (grid_cell img f row col) (cell_size f) (cell_size f).
Proof.
  unfold grid_cell, cell_size. split.
  - rewrite map_length, zrange_length. f_equal. lia.
  - rewrite Forall_map. apply Forall_forall. intros y _. rewrite map_length, zrange_length. f_equal. lia.
Qed.

Lemma cell_nonneg img f row col : nonneg (grid_cell img f row col).
Proof.
  unfold nonneg, grid_cell. rewrite Forall_map. apply Forall_forall. intros y _.
  rewrite Forall_map. apply Forall_forall. intros x _. destruct (_ =? _); lia.
Qed.

Lemma cell_pixel img f row col r c : (r < cell_size f)%nat -> (c < cell_size f)%nat ->
  is_set (grid_cell img f row col) r c =
  (img_red img (fs_border f + col * (fs_size f + fs_gutter f) + Z.of_nat c)
               (fs_border f + row * (fs_size f + fs_gutter f) + Z.of_nat r) =? 0).
Proof.
  intros Hr Hc. unfold is_set, grid_cell. unfold cell_size in Hr, Hc.
  set (px := fun y x => if img_red img x y =? 0 then 1%Z else 0%Z).
  set (xs := zrange _ _). set (ys := zrange _ _).
  assert (Ly : length ys = Z.to_nat (fs_size f + fs_gutter f - fs_border f))
    by (unfold ys; rewrite zrange_length; f_equal; lia).
  assert (Lx : length xs = Z.to_nat (fs_size f + fs_gutter f - fs_border f))
    by (unfold xs; rewrite zrange_length; f_equal; lia).
  change (map (fun y => map (fun x => if img_red img x y =? 0 then 1%Z else 0%Z) xs) ys)
    with (map (fun y => map (px y) xs) ys).
  rewrite (nth_indep _ [] (map (px 0%Z) xs)) by (rewrite map_length; lia).
  rewrite (map_nth (fun y => map (px y) xs)).
  rewrite (nth_indep _ 0%Z (px (nth r ys 0%Z) 0%Z)) by (rewrite map_length; lia).
  rewrite (map_nth (px (nth r ys 0%Z))).
  unfold px, xs, ys. rewrite !zrange_nth by lia.
  destruct (_ =? 0); reflexivity.
Qed.

(** ** One pattern *)

(** The trimmed glyph is not empty: the cell has ink, or the trim limits leave something *)
Definition drawable (img : image) (f : fontspec) (row col : Z) : Prop :=
  let l := trim_limits f row col in
  inky (grid_cell img f row col) \/
  ((Z.to_nat (l_left l) + Z.to_nat (l_right l) < cell_size f)%nat /\
   (Z.to_nat (l_top l) + Z.to_nat (l_bottom l) < cell_size f)%nat).

Definition on_sheet (img : image) (f : fontspec) (row col : Z) : Prop :=
  (0 <= row < Z.quot (img_max_y img - fs_border f) (fs_size f + fs_gutter f))%Z /\
  (0 <= col < fs_cols f)%Z.

Record pattern_ok (img : image) (f : fontspec) (bp : blitpattern) : Prop := {
  po_pattern : exists m w h x y,
    window (grid_cell img f (cs_row (bp_cs bp)) (cs_col (bp_cs bp))) m w h x y /\
    (0 < w <= cell_size f)%nat /\ (0 < h)%nat /\ (y + h <= cell_size f)%nat /\
    packed_matrix m w h (pat_header (N.of_nat w) (N.of_nat h) (N.of_nat y)) (bp_words bp) /\
    let l := trim_limits f (cs_row (bp_cs bp)) (cs_col (bp_cs bp)) in
    tight (l_top l) (l_right l) (l_bottom l) (l_left l)
      (grid_cell img f (cs_row (bp_cs bp)) (cs_col (bp_cs bp))) (cell_size f) (cell_size f) w h x y
}.

Lemma new_blit_pattern_ok img f cs :
  (fs_size f + fs_gutter f <> 0)%Z -> (0 < cell_size f < 256)%nat ->
  on_sheet img f (cs_row cs) (cs_col cs) -> drawable img f (cs_row cs) (cs_col cs) ->
  exists bp, new_blit_pattern img f cs = Ret bp /\ bp_cs bp = cs /\ pattern_ok img f bp.
Proof.
  intros Hg Hd [Hr Hc] Hdr. unfold new_blit_pattern.
  destruct (Z.eqb_spec (fs_size f + fs_gutter f) 0); [contradiction|].
  destruct (Z.ltb_spec (cs_row cs) 0); [lia|].
  destruct (Z.leb_spec (Z.quot (img_max_y img - fs_border f) (fs_size f + fs_gutter f)) (cs_row cs)); [lia|].
  destruct (Z.ltb_spec (cs_col cs) 0); [lia|].
  destruct (Z.leb_spec (fs_cols f) (cs_col cs)); [lia|]. cbn [orb].
  set (cell := grid_cell img f (cs_row cs) (cs_col cs)) in *.
  set (l := trim_limits f (cs_row cs) (cs_col cs)) in *.
  pose proof (cell_rect img f (cs_row cs) (cs_col cs)) as R. fold cell in R.
  pose proof (cell_nonneg img f (cs_row cs) (cs_col cs)) as Hn. fold cell in Hn.
  unfold drawable in Hdr. fold cell l in Hdr.
  destruct (trim_spec l cell _ _ R Hn ltac:(lia)) as [(m & y & x & w & h & E & Nm & W & L1 & L2 & L3 & L4 & T)|(_ & Hi & L)].
  { change (2 ^ 32) with 4294967296. lia. }
  2:{ exfalso. destruct Hdr as [Hdr|Hdr]; [contradiction|lia]. }
  rewrite E. cbn [bind].
  assert (Hw : (0 < w)%nat /\ (0 < h)%nat).
  { destruct Hdr as [(r & c & Sx)|Hdr]; [|lia].
    destruct (win_outside _ _ _ _ _ _ W r c Sx). lia. }
  destruct (convert_ok m w h (N.of_nat y) (win_rect _ _ _ _ _ _ W)) as (words & Ew & P);
    try (change (2 ^ 32) with 4294967296); try lia.
  rewrite Ew. cbn [bind]. eexists. split; [reflexivity|]. split; [reflexivity|].
  split. cbn [bp_cs bp_words]. exists m, w, h, x, y. split; [exact W|]. split; [lia|]. split; [lia|]. split; [lia|].
  split; [exact P|]. apply T; intros ->; destruct (win_rect _ _ _ _ _ _ W) as [Wl _]; simpl in Wl; lia.
Qed.

(** A pattern that was made is on the sheet *)
Lemma new_blit_pattern_on_sheet img f cs bp : new_blit_pattern img f cs = Ret bp ->
  (fs_size f + fs_gutter f <> 0)%Z /\ on_sheet img f (cs_row cs) (cs_col cs).
Proof.
  unfold new_blit_pattern.
  destruct (Z.eqb_spec (fs_size f + fs_gutter f) 0); [discriminate|].
  destruct (_ || _ || _ || _)%Z%bool eqn:E; [discriminate|].
  intros _. split; [assumption|]. unfold on_sheet. lia.
Qed.

Lemma pattern_list_inv img f csl pl :
  (0 < cell_size f < 256)%nat -> Forall (fun cs => drawable img f (cs_row cs) (cs_col cs)) csl ->
  pattern_list img f csl = Ret pl -> map bp_cs pl = csl /\ Forall (pattern_ok img f) pl.
Proof.
  intros Hd Hdr. revert pl. induction Hdr as [|cs csl D Hdr IH]; intros pl E; cbn [pattern_list map_res] in E.
  - injection E as <-. split; [reflexivity|constructor].
  - unfold pattern_list in *. cbn [map_res] in E.
    apply bind_ret_inv in E. destruct E as (bp & Eb & E).
    apply bind_ret_inv in E. destruct E as (pl' & Ep & E). injection E as <-.
    destruct (new_blit_pattern_on_sheet _ _ _ _ Eb) as (Hg & Hon).
    destruct (new_blit_pattern_ok img f cs Hg Hd Hon D) as (bp' & Eb' & Ec & P).
    rewrite Eb in Eb'. injection Eb' as <-.
    destruct (IH _ Ep) as (Em & F). split; [cbn [map]; congruence|constructor; assumption].
Qed.

(** ** The records of a generated font *)

Lemma packed_u32 m w h y words : (w < 256)%nat -> (h < 256)%nat -> y < 256 ->
  packed_matrix m w h (pat_header (N.of_nat w) (N.of_nat h) y) words ->
  Forall (fun v => v < 2 ^ 32) words.
Proof.
  intros Lw Lh Ly [Hh Hl Hu _ _]. destruct words as [|v t]; [constructor|].
  constructor; [|exact Hu]. cbn [nth] in Hh. rewrite Hh, header_fields by lia.
  change (2 ^ 32) with 4294967296. lia.
Qed.

Lemma Forall2_nth_error {A B} (R : A -> B -> Prop) l1 l2 n a b :
  Forall2 R l1 l2 -> nth_error l1 n = Some a -> nth_error l2 n = Some b -> R a b.
Proof.
  intros F. revert n. induction F as [|x y t u Rxy F IH]; intros [|n] Ea Eb; try discriminate; simpl in *.
  - congruence.
  - eapply IH; eassumption.
Qed.

Lemma Forall2_length' {A B} (R : A -> B -> Prop) l1 l2 : Forall2 R l1 l2 -> length l1 = length l2.
Proof. intros F; induction F; simpl; congruence. Qed.

Lemma combine_nth_error {A B} (l1 : list A) (l2 : list B) n a b :
  nth_error l1 n = Some a -> nth_error l2 n = Some b -> In (a, b) (combine l1 l2).
Proof.
  revert l2 n. induction l1 as [|x t IH]; intros l2 n Ea Eb; [destruct n; discriminate|].
  destruct l2 as [|y u]; [destruct n; discriminate|]. destruct n as [|n]; simpl in *.
  - left. congruence.
  - right. eapply IH; eassumption.
Qed.

Lemma hash_aliases_offsets seed stored al stored' : hash_aliases seed stored al stored' ->
  forall cl off, In (cl, off) stored' -> exists cl', In (cl', off) stored.
Proof.
  intros W. induction W as [stored|stored canon alias off rest stored' cl k I1 I2 I3 I4 W IH];
    intros cl0 off0 I0; [exists cl0; exact I0|].
  destruct (IH cl0 off0 I0) as (cl' & I'). apply in_app_or in I'. destruct I' as [I'|[I'|[]]].
  - exists cl'. exact I'.
  - injection I' as <- <-. exists cl. apply in_block_in in I3. apply I3.
Qed.

Lemma hash_aliases_clusters seed stored al stored' : hash_aliases seed stored al stored' ->
  map fst stored' = map fst stored ++ map snd al.
Proof.
  intros W. induction W as [stored|stored canon alias off rest stored' cl k I1 I2 I3 I4 W IH].
  - rewrite app_nil_r. reflexivity.
  - rewrite IH, map_app, <- app_assoc. reflexivity.
Qed.

Lemma combine_fst {A B} (l1 : list A) (l2 : list B) : length l1 = length l2 -> map fst (combine l1 l2) = l1.
Proof.
  revert l2. induction l1 as [|a t IH]; intros [|b u] L; simpl in *; try discriminate; [reflexivity|].
  rewrite IH by congruence. reflexivity.
Qed.

Lemma with_aliases_in stored al stored' canon alias :
  with_aliases stored al stored' -> In (canon, alias) al ->
  exists off, In (canon, off) stored' /\ In (alias, off) stored'.
Proof.
  intros W. induction W as [stored|stored canon0 alias0 off rest stored' I W IH]; intros I0; [destruct I0|].
  destruct I0 as [E|I0].
  - injection E as -> ->. exists off. destruct (with_aliases_prefix _ _ _ W) as (more & ->).
    split; apply in_or_app; left; apply in_or_app; [left; exact I|right; left; reflexivity].
  - apply IH. exact I0.
Qed.

Lemma rune_u32 n : rune n < 2 ^ 32.
Proof.
  unfold rune. destruct (is_char n) eqn:E; [|reflexivity]. unfold is_char in E.
  change (2 ^ 32) with 4294967296. lia.
Qed.

Lemma string_from_hex_u32 hex s : string_from_hex_gc hex = Ret s -> is_u32 s.
Proof.
  unfold string_from_hex_gc. generalize (split_on 45 hex). intros l. revert s.
  induction l as [|hc t IH]; intros s E; cbn [map_res] in E.
  - injection E as <-. constructor.
  - destruct (parse_hex hc) as [n|]; [|discriminate]. cbn [bind] in E.
    apply bind_ret_inv in E. destruct E as (u & Eu & E). injection E as <-.
    constructor; [apply rune_u32|apply IH; exact Eu].
Qed.

Lemma parse_all_u32 csl cls :
  Forall2 (fun cs cl => string_from_hex_gc (cs_hex cs) = Ret cl) csl cls -> Forall is_u32 cls.
Proof.
  intros F. induction F as [|cs cl csl cls E F IH]; [apply Forall_nil|].
  apply Forall_cons; [|exact IH]. eapply string_from_hex_u32. exact E.
Qed.
Lemma parse_pairs_u32 al pairs : Forall2 parses al pairs -> Forall is_u32 (map snd pairs).
Proof.
  intros F. induction F as [|a p al pairs [_ E] F IH]; simpl; [apply Forall_nil|].
  apply Forall_cons; [|exact IH]. eapply string_from_hex_u32. exact E.
Qed.

(** ** The whole generator *)
Section Generated.
  Variables (fs : fontspec) (img : image) (csl : list charspec) (al : list gcalias).
  Variables (cls : list str) (pairs : list (str * str)) (fnt : font).
  Let H := fun s => go_murmur3 s (fs_seed fs).

  Hypothesis Hgen : generate fs img csl al = Ret fnt.
  Hypothesis Hcls : Forall2 (fun cs cl => string_from_hex_gc (cs_hex cs) = Ret cl) csl cls.
  Hypothesis Hpairs : Forall2 parses al pairs.
  Hypothesis Hcell : cell_size fs = Z.to_nat (fs_size fs).
  Hypothesis Hsize : (0 < fs_size fs <= 32)%Z.
  Hypothesis Hdraw : Forall (fun cs => drawable img fs (cs_row cs) (cs_col cs)) csl.
  Hypothesis Hcount : N.of_nat (length csl) < 2 ^ 25.
  Hypothesis Hcanon : forall canon alias, In (canon, alias) pairs -> In canon cls.
  Hypothesis Hnc : no_collisions H known_blocks (cls ++ map snd pairs).

  (** Everything known about the run *)
  Lemma generate_inv : exists pl g stored,
    map bp_cs pl = csl /\ Forall (pattern_ok img fs) pl /\
    gs_code g = concat (map bp_words pl) /\
    holds (fs_seed fs) (gs_index g) stored /\
    with_aliases (combine cls (offsets_from 0 (map bp_words pl))) pairs stored /\
    map fst stored = cls ++ map snd pairs /\
    (forall cl off, In (cl, off) stored -> exists cl', In (cl', off) (combine cls (offsets_from 0 (map bp_words pl)))) /\
    fnt = render_font fs g (fs_seed fs).
  Proof.
    unfold generate in Hgen.
    apply bind_ret_inv in Hgen. destruct Hgen as (pl & Epl & E).
    apply bind_ret_inv in E. destruct E as (g0 & Eg & E).
    apply bind_ret_inv in E. destruct E as (g & Ea & E). injection E as <-.
    destruct (pattern_list_inv img fs csl pl) as (Em & Fp); [lia|exact Hdraw|exact Epl|].
    destruct (new_set_inv _ _ _ Eg) as (cls0 & F0 & Hc & Hl & Hh).
    assert (cls0 = cls) as ->.
    { clear - F0 Hcls Em. subst csl. revert cls Hcls. induction F0 as [|p cl pl cls0 E F0 IH]; intros cls F; simpl in F.
      - inversion F. reflexivity.
      - inversion F as [|x y u v E' F']; subst. rewrite E in E'. injection E' as ->.
        f_equal. apply IH. exact F'. }
    unfold add_aliases in Ea. apply bind_ret_inv in Ea. destruct Ea as (ix & Ei & Ea). injection Ea as <-.
    destruct (add_aliases_inv _ _ _ _ _ Hh Ei) as (pairs0 & stored & Fp0 & W & Hs).
    assert (pairs0 = pairs) as ->.
    { clear - Fp0 Hpairs. revert pairs Hpairs. induction Fp0 as [|a p al pairs0 [E1 E2] F0 IH]; intros pairs F.
      - inversion F. reflexivity.
      - inversion F as [|x y u v [E1' E2'] F']; subst. rewrite E1 in E1'. rewrite E2 in E2'.
        injection E1' as E1'. injection E2' as E2'. f_equal; [|apply IH; exact F'].
        destruct p, y; simpl in *; congruence. }
    assert (Lc : length cls = length (offsets_from 0 (map bp_words pl))).
    { rewrite offsets_length, map_length. symmetry. eapply Forall2_length'. exact F0. }
    assert (Ecl : map fst stored = cls ++ map snd pairs).
    { rewrite (hash_aliases_clusters _ _ _ _ W), combine_fst by exact Lc. reflexivity. }
    exists pl, (GlyphSet (gs_code g0) (gs_len g0) ix), stored. cbn [gs_code gs_index].
    repeat (split; [first [assumption|reflexivity]|]).
    split.
    { apply (hash_aliases_exact (fs_seed fs)); [exact W| |].
      - rewrite Ecl. exact Hnc.
      - intros canon alias I. rewrite combine_fst by exact Lc. apply (Hcanon canon alias I). }
    split; [exact Ecl|]. split; [|reflexivity].
    intros cl off I. exact (hash_aliases_offsets _ _ _ _ W cl off I).
  Qed.

  (** Every offset of the base list is where a pattern is *)
  Lemma record_at pl g n bp :
    gs_code g = concat (map bp_words pl) -> nth_error pl n = Some bp ->
    let off := nth n (offsets_from 0 (map bp_words pl)) 0 in
    data_at (render_font fs g (fs_seed fs)) off (bp_words bp) /\
    off + N.of_nat (length (bp_words bp)) <= N.of_nat (length (gs_code g)).
  Proof.
    intros Hc En. assert (Ln : (n < length (map bp_words pl))%nat).
    { rewrite map_length. apply nth_error_Some. congruence. }
    cbv zeta. rewrite offsets_nth by exact Ln. rewrite N.add_0_l.
    assert (Eb : nth n (map bp_words pl) [] = bp_words bp).
    { apply nth_error_nth. rewrite nth_error_map, En. reflexivity. }
    split.
    - intros i Li. unfold font_word. rewrite render_data, Hc.
      replace (N.to_nat (N.of_nat (length (concat (firstn n (map bp_words pl)))) + N.of_nat i))
        with (length (concat (firstn n (map bp_words pl))) + i)%nat by lia.
      rewrite concat_nth_record by (rewrite ?Eb; assumption). rewrite Eb. reflexivity.
    - rewrite Hc. rewrite <- (firstn_skipn n (map bp_words pl)) at 2.
      rewrite concat_app, app_length.
      assert (Es : exists rest, skipn n (map bp_words pl) = bp_words bp :: rest).
      { clear - En. revert n En. induction pl as [|p t IH]; intros [|n] En; try discriminate; simpl in *.
        - injection En as ->. eexists. reflexivity.
        - apply IH. exact En. }
      destruct Es as (rest & ->). cbn [concat]. rewrite app_length. lia.
  Qed.

  Lemma record_glyph pl g n bp :
    gs_code g = concat (map bp_words pl) -> Forall (pattern_ok img fs) pl -> nth_error pl n = Some bp ->
    let off := nth n (offsets_from 0 (map bp_words pl)) 0 in
    let f := render_font fs g (fs_seed fs) in
    glyph_ok f off /\
    exists x, draws f off (grid_cell img fs (cs_row (bp_cs bp)) (cs_col (bp_cs bp))) x /\
      let l := trim_limits fs (cs_row (bp_cs bp)) (cs_col (bp_cs bp)) in
      cut_close (l_top l) (l_right l) (l_bottom l) (l_left l) f off
        (grid_cell img fs (cs_row (bp_cs bp)) (cs_col (bp_cs bp))) (cell_size fs) x.
  Proof.
    intros Hc Fp En. cbv zeta.
    destruct (record_at pl g n bp Hc En) as (D & L).
    set (off := nth n (offsets_from 0 (map bp_words pl)) 0) in *.
    set (f := render_font fs g (fs_seed fs)) in *.
    assert (P : pattern_ok img fs bp).
    { rewrite Forall_forall in Fp. apply Fp. eapply nth_error_In. exact En. }
    destruct P as [(m & w & h & x & y & W & Lw & Lh & Ly & P & T)].
    destruct (packed_shows f off m w h (N.of_nat y) (bp_words bp) P) as [Sw Sh Sy Sp];
      try lia; [exact D|].
    pose proof (pm_length _ _ _ _ _ P) as Plen.
    split.
    - split; rewrite ?Sw, ?Sh, ?Sy.
      + lia.
      + lia.
      + change (f_max_height f) with (Z.to_N (fs_size fs)). lia.
      + unfold f; rewrite render_data. lia.
    - exists x. split; [|unfold cut_close; rewrite Sw, Sh, Sy, !Nnat.Nat2N.id; exact T].
      split; rewrite ?Sw, ?Sh, ?Sy.
      + intros r c Hr Hc'. rewrite Sp by lia. rewrite (win_inside _ _ _ _ _ _ W) by lia.
        f_equal. lia.
      + intros r c Sx. destruct (win_outside _ _ _ _ _ _ W r c Sx). lia.
  Qed.

  Lemma words_bound pl : Forall (pattern_ok img fs) pl ->
    N.of_nat (length (concat (map bp_words pl))) <= 33 * N.of_nat (length pl) /\
    Forall (fun v => v < 2 ^ 32) (concat (map bp_words pl)).
  Proof.
    induction 1 as [|bp pl P Fp [IH1 IH2]]; cbn [map concat length].
    - split; [lia|constructor].
    - destruct P as [(m & w & h & x & y & W & Lw & Lh & Ly & P & _)].
      pose proof (pm_length _ _ _ _ _ P) as Plen.
      assert (N.of_nat w * N.of_nat h <= 32 * 32) by (apply N.mul_le_mono; lia).
      split.
      + rewrite app_length. lia.
      + apply Forall_app. split; [|exact IH2].
        apply (packed_u32 m w h (N.of_nat y)); [lia|lia|lia|exact P].
  Qed.

  Lemma parsed_u32 : forall pl stored,
    with_aliases (combine cls (offsets_from 0 (map bp_words pl))) pairs stored ->
    map fst stored = cls ++ map snd pairs -> Forall (fun p => is_u32 (fst p)) stored.
  Proof.
    intros pl stored _ E.
    assert (G : Forall is_u32 (cls ++ map snd pairs)).
    { apply Forall_app. split.
      - exact (parse_all_u32 _ _ Hcls).
      - exact (parse_pairs_u32 _ _ Hpairs). }
    rewrite <- E in G. rewrite Forall_map in G. exact G.
  Qed.

  Lemma generated_ok : font_ok fnt.
  Proof.
    destruct generate_inv as (pl & g & stored & Em & Fp & Hc & Hh & W & Ecl & Hoff & ->).
    assert (Lpl : length pl = length csl) by (rewrite <- Em, map_length; reflexivity).
    destruct (words_bound pl Fp) as [B1 B2].
    pose proof (parsed_u32 pl stored W Ecl) as U.
    assert (NC : no_collisions (fun s => go_murmur3 s (fs_seed fs)) known_blocks (map fst stored)).
    { rewrite Ecl. exact Hnc. }
    assert (Hg : forall cl off, In (cl, off) stored -> glyph_ok (render_font fs g (fs_seed fs)) off).
    { intros cl off I. destruct (Hoff cl off I) as (cl' & I').
      apply in_combine_r in I'. apply (In_nth _ _ 0) in I'. destruct I' as (n & Ln & En).
      rewrite offsets_length, map_length in Ln.
      destruct (nth_error pl n) as [bp|] eqn:Eb; [|apply nth_error_None in Eb; lia].
      destruct (record_glyph pl g n bp Hc Fp Eb) as [G _]. rewrite En in G. exact G. }
    change (2 ^ 25) with 33554432 in Hcount.
    split.
    - unfold render_font. cbn [f_data]. apply pieces_fine. lia.
    - rewrite render_data, Hc. exact B2.
    - rewrite render_data, Hc. change (2 ^ 31) with 2147483648. lia.
    - unfold render_font. cbn [f_max_height]. lia.
    - apply Forall_forall. intros b Ib. apply (blocks_of_font fs g (fs_seed fs) stored Hh) in Ib.
      destruct Ib as (k & Ik & ->).
      destruct (block_hashes g (fs_seed fs) stored Hh NC k (ho_known _ _ _ Hh k Ik)) as [_ So].
      destruct k as [lo hi]. cbn [render_block b_hash]. apply strongly_sorted_lt_nth. exact So.
    - apply Forall_forall. intros b Ib. apply (blocks_of_font fs g (fs_seed fs) stored Hh) in Ib.
      destruct Ib as (k & Ik & ->). pose proof (ho_known _ _ _ Hh k Ik) as Kk.
      pose proof (ho_perm _ _ _ Hh k Kk) as P.
      destruct k as [lo hi]. cbn [render_block]. split; cbn [b_hash b_offset b_limits].
      + rewrite !map_length. reflexivity.
      + apply Forall_forall. intros n In_. apply lengths_in in In_. destruct In_ as (e & Ie & <-).
        eapply Permutation_in in Ie; [|exact P]. apply in_map_iff in Ie.
        destruct Ie as ([cl off] & <- & I). apply in_block_in in I. destruct I as [_ I].
        cbn [fst] in I. cbn [entry_of e_cluster fst]. destruct cl; [discriminate|]. cbn [length]. lia.
      + apply Forall_forall. intros off Io. apply in_map_iff in Io. destruct Io as (e & <- & Ie).
        eapply Permutation_in in Ie; [|exact P]. apply in_map_iff in Ie.
        destruct Ie as ([cl off] & <- & I). apply in_block_in in I. destruct I as [I _].
        cbn [entry_of e_offset snd]. exact (Hg cl off I).
  Qed.

  Lemma generated_glyphs n cs cl : nth_error csl n = Some cs -> nth_error cls n = Some cl ->
    exists off x, glyph_for fnt cl = Some (off, length cl) /\
      draws fnt off (grid_cell img fs (cs_row cs) (cs_col cs)) x /\
      let l := trim_limits fs (cs_row cs) (cs_col cs) in
      cut_close (l_top l) (l_right l) (l_bottom l) (l_left l) fnt off
        (grid_cell img fs (cs_row cs) (cs_col cs)) (cell_size fs) x.
  Proof.
    intros Ec El.
    destruct generate_inv as (pl & g & stored & Em & Fp & Hc & Hh & W & Ecl & Hoff & ->).
    pose proof (parsed_u32 pl stored W Ecl) as U.
    assert (NC : no_collisions (fun s => go_murmur3 s (fs_seed fs)) known_blocks (map fst stored)).
    { rewrite Ecl. exact Hnc. }
    rewrite <- Em, nth_error_map in Ec.
    destruct (nth_error pl n) as [bp|] eqn:Eb; [|discriminate]. cbn [option_map] in Ec. injection Ec as <-.
    destruct (record_glyph pl g n bp Hc Fp Eb) as (_ & x & D).
    set (off := nth n (offsets_from 0 (map bp_words pl)) 0) in *.
    exists off, x. split; [|exact D].
    apply (rendered_lookup fs g (fs_seed fs) stored Hh U NC).
    destruct (with_aliases_prefix _ _ _ W) as (more & ->). apply in_or_app. left.
    eapply combine_nth_error; [exact El|].
    assert (Ln : (n < length (offsets_from 0 (map bp_words pl)))%nat).
    { rewrite offsets_length, map_length. apply nth_error_Some. congruence. }
    rewrite (nth_error_nth' _ n 0) by exact Ln. reflexivity.
  Qed.

  Lemma generated_aliases canon alias : In (canon, alias) pairs ->
    exists off, glyph_for fnt canon = Some (off, length canon) /\
                glyph_for fnt alias = Some (off, length alias).
  Proof.
    intros I.
    destruct generate_inv as (pl & g & stored & Em & Fp & Hc & Hh & W & Ecl & Hoff & ->).
    pose proof (parsed_u32 pl stored W Ecl) as U.
    assert (NC : no_collisions (fun s => go_murmur3 s (fs_seed fs)) known_blocks (map fst stored)).
    { rewrite Ecl. exact Hnc. }
    destruct (with_aliases_in _ _ _ canon alias W I) as (off & I1 & I2).
    exists off. split; apply (rendered_lookup fs g (fs_seed fs) stored Hh U NC); assumption.
  Qed.
End Generated.
