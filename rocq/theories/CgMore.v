(** * The generator returns; painting generated glyphs; hexadecimal cluster names *)
From Coq Require Import ZArith Permutation Sorted.
From Verif Require Import PrimFacts Str M3Hash Geom FontDefs Blit Spec SpecPaint SpecCodegen Codegen.
From Verif Require Import LookupProofs SortProofs PackProofs TrimProofs CgIndex CgFont CgGenerate.
From Verif Require Import LayoutProofs TextProofs PropsPaint.

(** ** Generation succeeds *)
Lemma map_res_exists {A B} (f : A -> res B) l :
  Forall (fun a => exists b, f a = Ret b) l -> exists bs, map_res f l = Ret bs.
Proof.
  induction 1 as [|a t (b & E) F (bs & IH)]; simpl; [exists []; reflexivity|].
  rewrite E. cbn [bind]. rewrite IH. cbn [bind]. eexists; reflexivity.
Qed.

Lemma pattern_list_cs img fs csl pl : pattern_list img fs csl = Ret pl -> map bp_cs pl = csl.
Proof.
  unfold pattern_list. revert pl. induction csl as [|cs t IH]; intros pl E; cbn [map_res] in E.
  - injection E as <-. reflexivity.
  - apply bind_ret_inv in E. destruct E as (bp & Eb & E).
    apply bind_ret_inv in E. destruct E as (pl' & Ep & E). injection E as <-.
    cbn [map]. rewrite (IH _ Ep). f_equal.
    unfold new_blit_pattern in Eb. destruct (_ =? 0)%Z; [discriminate|].
    destruct (_ || _)%bool; [discriminate|].
    apply bind_ret_inv in Eb. destruct Eb as ([m y] & _ & Eb).
    apply bind_ret_inv in Eb. destruct Eb as (ws & _ & Eb). injection Eb as <-. reflexivity.
Qed.

Lemma add_aliases_ok seed al pairs : forall ix stored,
  Forall2 parses al pairs -> holds seed ix stored ->
  (forall canon alias, In (canon, alias) pairs -> In canon (map fst stored) /\
     exists k, In k known_blocks /\ starts_in k alias = true) ->
  exists ix', fold_res (add_alias seed) al ix = Ret ix'.
Proof.
  intros ix stored F. revert ix stored.
  induction F as [|a [canon alias] al pairs [Pc Pa] F IH]; intros ix stored H C; cbn [fold_res].
  - eexists; reflexivity.
  - destruct (C canon alias ltac:(left; reflexivity)) as (Ic & ka & Ika & Ska).
    apply in_map_iff in Ic. destruct Ic as ([canon' off] & E & Ic). cbn in E. subst canon'.
    pose proof (ho_starts _ _ _ H) as S. rewrite Forall_forall in S.
    destruct (S _ Ic) as (k & Ik & Sk). cbn [fst snd] in *.
    assert (exists off', find_data_offset ix k canon seed = Ret off') as (off' & Ef).
    { pose proof (find_offset_spec ix k canon seed (ho_sorted _ _ _ H k Ik)) as Fo.
      destruct (find_data_offset ix k canon seed) as [off'|]; [exists off'; reflexivity|].
      exfalso. apply (Fo (entry_of seed (canon, off))); [|reflexivity].
      eapply Permutation_in; [symmetry; apply (ho_perm _ _ _ H k Ik)|].
      apply in_map. apply in_block_in. auto. }
    assert (Ea : exists ix1, add_alias seed ix a = Ret ix1 /\ gs_insert ix alias seed off' = Ret ix1).
    { unfold add_alias. rewrite Pc. cbn [bind]. destruct canon as [|c t]; [discriminate|].
      change (first_rune (c :: t)) with (Ret c). cbn [bind].
      rewrite (ublock_of_known c k Ik Sk). cbn [bind]. rewrite Ef. cbn [bind]. rewrite Pa. cbn [bind].
      rewrite (gs_insert_ok _ _ _ _ ka Ika Ska). eexists; split; reflexivity. }
    destruct Ea as (ix1 & Ea & Ei). rewrite Ea. cbn [bind].
    apply (IH ix1 (stored ++ [(alias, off')])); [eapply insert_holds; eassumption|].
    intros canon0 alias0 I0. destruct (C canon0 alias0 ltac:(right; exact I0)) as (I1 & I2).
    split; [|exact I2]. rewrite map_app. apply in_or_app. left. exact I1.
Qed.

Lemma generate_returns fs img csl al cls pairs :
  Forall2 (fun cs cl => string_from_hex_gc (cs_hex cs) = Ret cl) csl cls ->
  Forall2 parses al pairs ->
  (fs_size fs + fs_gutter fs <> 0)%Z -> (0 < cell_size fs < 256)%nat ->
  Forall (fun cs => on_sheet img fs (cs_row cs) (cs_col cs) /\
                    drawable img fs (cs_row cs) (cs_col cs)) csl ->
  (forall canon alias, In (canon, alias) pairs -> In canon cls) ->
  Forall (fun cl => exists k, In k known_blocks /\ starts_in k cl = true) (cls ++ map snd pairs) ->
  exists fnt, generate fs img csl al = Ret fnt.
Proof.
  intros Hcls Hpairs Hg Hd Hs Hcanon Hk. unfold generate.
  apply Forall_app in Hk. destruct Hk as [Hk1 Hk2].
  destruct (map_res_exists (new_blit_pattern img fs) csl) as (pl & Epl).
  { eapply Forall_impl; [|exact Hs]. intros cs [On Dr].
    destruct (new_blit_pattern_ok img fs cs Hg Hd On Dr) as (bp & E & _). exists bp; exact E. }
  unfold pattern_list. rewrite Epl. cbn [bind].
  pose proof (pattern_list_cs img fs csl pl Epl) as Em.
  destruct (add_patterns_ok (fs_seed fs) pl cls (GlyphSet [] 0 [])) as (g & Eg).
  { clear - Hcls Hk1 Em. subst csl. revert cls Hcls Hk1. induction pl as [|p t IH]; intros cls F K; simpl in F.
    - inversion F. constructor.
    - inversion F as [|x y u v E F']; subst. inversion K; subst. constructor; auto. }
  unfold new_glyph_set_from. rewrite Eg. cbn [bind].
  destruct (new_set_inv _ _ _ Eg) as (cls0 & F0 & Hc & Hl & Hh).
  assert (cls0 = cls) as ->.
  { clear - F0 Hcls Em. subst csl. revert cls Hcls. induction F0 as [|p cl pl cls0 E F0 IH]; intros cls F; simpl in F.
    - inversion F. reflexivity.
    - inversion F as [|x y u v E' F']; subst. rewrite E in E'. injection E' as ->.
      f_equal. apply IH. exact F'. }
  assert (Lc : length cls = length (offsets_from 0 (map bp_words pl))).
  { rewrite offsets_length, map_length. symmetry. eapply Forall2_length'. exact F0. }
  destruct (add_aliases_ok (fs_seed fs) al pairs (gs_index g) _ Hpairs Hh) as (ix & Ei).
  { intros canon alias I. split.
    - rewrite combine_fst by exact Lc. apply (Hcanon canon alias I).
    - rewrite Forall_map in Hk2. rewrite Forall_forall in Hk2. exact (Hk2 _ I). }
  unfold add_aliases. rewrite Ei. cbn [bind]. eexists; reflexivity.
Qed.

(** ** Painting a glyph that draws a picture *)
Lemma paint_draws m F fb clip c st s gs off picture x :
  cfg_ok m -> fontset_ok F -> is_frbuf fb -> paintable clip -> px (cmin clip) < 320 ->
  cursor_fits m F c s -> s <> [] -> nth_error s 0 <> Some 10 ->
  choose F st s = (gs, off, [], true) -> draws (F gs) off picture x ->
  let c1 := seek F clip c (gl_w (F gs) off) in
  cy c1 + gl_y (F gs) off <= py (cmax clip) ->
  exists fb', paint_str m F fb clip c st s = Ret (fb', after F gs off c1) /\ is_frbuf fb' /\
    forall X Y, X < STORED_WIDTH -> Y < LINES ->
      pixel fb' X Y = xorb (pixel fb X Y)
        ((cx c1 + 1 <=? X) && (cy c1 <=? Y) && (py (cmin clip) <=? Y) && (Y <? py (cmax clip))
         && is_set picture (N.to_nat (Y - cy c1)) (x + N.to_nat (X - (cx c1 + 1)))).
Proof.
  intros Hm HF Hfb Hp Hx Hc Hs H10 Ech [Dp Dc] c1 Hy.
  destruct (C13_glyph_pixels m F fb clip c st s gs off Hm HF Hfb Hp Hx Hc Hs H10 Ech Hy)
    as (fb' & E & Hfb' & Hpx).
  fold c1 in E, Hpx. exists fb'. split; [exact E|]. split; [exact Hfb'|].
  intros X Y LX LY. rewrite (Hpx X Y LX LY). f_equal. unfold in_rect.
  set (W := gl_w (F gs) off) in *. set (H := gl_h (F gs) off) in *. set (Yo := gl_y (F gs) off) in *.
  destruct (N.leb_spec (cx c1 + 1) X) as [X1|X1]; cbn [andb]; [|reflexivity].
  destruct (is_set picture (N.to_nat (Y - cy c1)) (x + N.to_nat (X - (cx c1 + 1)))) eqn:Es.
  - rewrite andb_true_r. destruct (N.leb_spec (cy c1) Y) as [Y1|Y1].
    + destruct (Dc _ _ Es) as [D1 D2].
      destruct (N.ltb_spec X (cx c1 + 1 + W)); [|lia].
      destruct (N.leb_spec (cy c1 + Yo) Y); [|lia].
      destruct (N.ltb_spec Y (cy c1 + Yo + H)); [|lia]. cbn [andb].
      assert (G : glyph_pixel (F gs) off (X - (cx c1 + 1)) (Y - (cy c1 + Yo)) = true).
      { rewrite <- (Nnat.N2Nat.id (X - (cx c1 + 1))), <- (Nnat.N2Nat.id (Y - (cy c1 + Yo))).
        rewrite Dp by lia.
        replace (N.to_nat Yo + N.to_nat (Y - (cy c1 + Yo)))%nat with (N.to_nat (Y - cy c1)) by lia.
        exact Es. }
      rewrite G, andb_true_r. reflexivity.
    + cbn [andb]. destruct (N.leb_spec (cy c1 + Yo) Y); [lia|].
      rewrite andb_false_r. reflexivity.
  - rewrite andb_false_r.
    destruct (N.ltb_spec X (cx c1 + 1 + W)) as [X2|X2]; cbn [andb]; [|reflexivity].
    destruct (N.leb_spec (cy c1 + Yo) Y) as [Y1|Y1]; cbn [andb]; [|reflexivity].
    destruct (N.ltb_spec Y (cy c1 + Yo + H)) as [Y2|Y2]; cbn [andb]; [|reflexivity].
    assert (G : glyph_pixel (F gs) off (X - (cx c1 + 1)) (Y - (cy c1 + Yo)) = false).
    { rewrite <- (Nnat.N2Nat.id (X - (cx c1 + 1))), <- (Nnat.N2Nat.id (Y - (cy c1 + Yo))).
      rewrite Dp by lia.
      replace (N.to_nat Yo + N.to_nat (Y - (cy c1 + Yo)))%nat with (N.to_nat (Y - cy c1)) by lia.
      exact Es. }
    rewrite G, andb_false_r. reflexivity.
Qed.

(** The same for a matrix packed at offset off *)
Lemma paint_shows m F fb clip c st s gs off mat w h y :
  cfg_ok m -> fontset_ok F -> is_frbuf fb -> paintable clip -> px (cmin clip) < 320 ->
  cursor_fits m F c s -> s <> [] -> nth_error s 0 <> Some 10 ->
  choose F st s = (gs, off, [], true) -> rect mat w h -> shows (F gs) off mat w h y ->
  let c1 := seek F clip c (N.of_nat w) in
  let x0 := cx c1 + 1 in
  let y0 := cy c1 + y in
  y0 <= py (cmax clip) ->
  exists fb', paint_str m F fb clip c st s = Ret (fb', after F gs off c1) /\ is_frbuf fb' /\
    forall X Y, X < STORED_WIDTH -> Y < LINES ->
      pixel fb' X Y = xorb (pixel fb X Y)
        ((x0 <=? X) && (y0 <=? Y) && (py (cmin clip) <=? Y) && (Y <? py (cmax clip))
         && is_set mat (N.to_nat (Y - y0)) (N.to_nat (X - x0))).
Proof.
  intros Hm HF Hfb Hp Hx Hc Hs H10 Ech R [Sw Sh Sy Sp] c1 x0 y0 Hy.
  pose proof (C13_glyph_pixels m F fb clip c st s gs off Hm HF Hfb Hp Hx Hc Hs H10 Ech) as P.
  rewrite Sw, Sy in P. fold c1 in P. fold x0 y0 in P. destruct (P Hy) as (fb' & E & Hfb' & Hpx).
  exists fb'. split; [exact E|]. split; [exact Hfb'|].
  intros X Y LX LY. rewrite (Hpx X Y LX LY). f_equal. rewrite ?Sw, ?Sh, ?Sy. fold c1 x0 y0. unfold in_rect.
  destruct (N.leb_spec x0 X) as [X1|X1]; cbn [andb]; [|reflexivity].
  destruct (N.leb_spec y0 Y) as [Y1|Y1]; cbn [andb]; [|rewrite andb_false_r; reflexivity].
  destruct (N.ltb_spec X (x0 + N.of_nat w)) as [X2|X2]; cbn [andb].
  - destruct (N.ltb_spec Y (y0 + N.of_nat h)) as [Y2|Y2]; cbn [andb].
    + f_equal. rewrite <- (Nnat.N2Nat.id (X - x0)), <- (Nnat.N2Nat.id (Y - y0)), Sp by lia.
      rewrite !Nnat.N2Nat.id. reflexivity.
    + assert (is_set mat (N.to_nat (Y - y0)) (N.to_nat (X - x0)) = false) as ->; [|rewrite andb_false_r; reflexivity].
      unfold is_set. rewrite (nth_overflow mat) by (destruct R as [-> _]; lia).
      destruct (N.to_nat (X - x0)); reflexivity.
  - assert (is_set mat (N.to_nat (Y - y0)) (N.to_nat (X - x0)) = false) as ->; [|rewrite andb_false_r; reflexivity].
    unfold is_set. rewrite nth_overflow; [reflexivity|].
    destruct R as [Rl Rf]. destruct (Nat.lt_ge_cases (N.to_nat (Y - y0)) (length mat)) as [L|L].
    + rewrite Forall_forall in Rf. rewrite (Rf (nth (N.to_nat (Y - y0)) mat [])) by (apply nth_In; exact L). lia.
    + rewrite nth_overflow by exact L. simpl. lia.
Qed.

(** ** The generated unit test test_hashes_unique_and_sorted *)
Lemma hash_aliases_fst seed stored pairs stored' :
  hash_aliases seed stored pairs stored' -> map fst stored' = map fst stored ++ map snd pairs.
Proof. exact (hash_aliases_clusters seed stored pairs stored'). Qed.

Lemma generate_index fs img csl al cls pairs fnt :
  generate fs img csl al = Ret fnt ->
  Forall2 (fun cs cl => string_from_hex_gc (cs_hex cs) = Ret cl) csl cls ->
  Forall2 parses al pairs ->
  exists g stored, fnt = render_font fs g (fs_seed fs) /\ holds (fs_seed fs) (gs_index g) stored /\
    map fst stored = cls ++ map snd pairs.
Proof.
  intros E Hcls Hpairs. unfold generate in E.
  apply bind_ret_inv in E. destruct E as (pl & Epl & E).
  apply bind_ret_inv in E. destruct E as (g0 & Eg & E).
  apply bind_ret_inv in E. destruct E as (g & Ea & E). injection E as <-.
  pose proof (pattern_list_cs img fs csl pl Epl) as Em.
  destruct (new_set_inv _ _ _ Eg) as (cls0 & F0 & Hc & Hl & Hh).
  assert (cls0 = cls) as ->.
  { clear - F0 Hcls Em. subst csl. revert cls Hcls. induction F0 as [|p cl pl cls0 E F0 IH]; intros cls F; simpl in F.
    - inversion F. reflexivity.
    - inversion F as [|x y u v E' F']; subst. rewrite E in E'. injection E' as ->.
      f_equal. apply IH. exact F'. }
  unfold add_aliases in Ea. apply bind_ret_inv in Ea. destruct Ea as (ix & Ei & Ea). injection Ea as <-.
  destruct (add_aliases_inv _ _ _ _ _ Hh Ei) as (pairs0 & stored & Fp0 & W & Hs).
  assert (pairs0 = pairs) as ->.
  { clear - Fp0 Hpairs. revert pairs Hpairs. induction Fp0 as [|a p al pairs0 [E1 E2] F0 IH]; intros pairs F.
    - inversion F. reflexivity.
    - inversion F as [|x y u v [E1' E2'] F']; subst. rewrite E1 in E1'. rewrite E2 in E2'.
      injection E1' as E1'. injection E2' as E2'. f_equal; [|apply IH; exact F'].
      destruct p, y; simpl in *; congruence. }
  assert (Lc : length cls = length (offsets_from 0 (map bp_words pl))).
  { rewrite offsets_length, map_length. symmetry. eapply Forall2_length'. exact F0. }
  exists (GlyphSet (gs_code g0) (gs_len g0) ix), stored. split; [reflexivity|]. split; [exact Hs|].
  rewrite (hash_aliases_clusters _ _ _ _ W), combine_fst by exact Lc. reflexivity.
Qed.

Lemma steps_sorted l : (forall i, (i + 1 < length l)%nat -> nth i l 0 < nth (i + 1) l 0) -> NoDup l.
Proof.
  intros H. apply (NoDup_nth l 0). intros i j Li Lj E.
  assert (M : forall d i, (i + S d < length l)%nat -> nth i l 0 < nth (i + S d) l 0).
  { induction d as [|d IH]; intros a La; [apply H; lia|].
    specialize (IH a ltac:(lia)). pose proof (H (a + S d)%nat ltac:(lia)) as H'.
    replace (a + S d + 1)%nat with (a + S (S d))%nat in H' by lia. lia. }
  destruct (Nat.lt_trichotomy i j) as [L|[L|L]]; [|exact L|].
  - pose proof (M (j - i - 1)%nat i ltac:(lia)) as M'. replace (i + S (j - i - 1))%nat with j in M' by lia. lia.
  - pose proof (M (i - j - 1)%nat j ltac:(lia)) as M'. replace (j + S (i - j - 1))%nat with i in M' by lia. lia.
Qed.

Lemma unit_test_detects fs img csl al cls pairs fnt :
  generate fs img csl al = Ret fnt ->
  Forall2 (fun cs cl => string_from_hex_gc (cs_hex cs) = Ret cl) csl cls ->
  Forall2 parses al pairs ->
  Forall (fun b => forall i, (i + 1 < length (b_hash b))%nat ->
                     nth i (b_hash b) 0 < nth (i + 1) (b_hash b) 0) (f_blocks fnt) <->
  no_collisions (fun s => go_murmur3 s (fs_seed fs)) known_blocks (cls ++ map snd pairs).
Proof.
  intros Hg Hcls Hpairs.
  destruct (generate_index fs img csl al cls pairs fnt Hg Hcls Hpairs) as (g & stored & -> & Hh & Ef).
  rewrite <- Ef. rewrite Forall_forall. split.
  - intros T k Ik.
    assert (D : NoDup (map e_hash (map_get (gs_index g) k))).
    { destruct (in_dec (fun a b => match bool_dec (ublock_eqb a b) true with
        | left e => left (proj1 (ublock_eqb_spec a b) e)
        | right n => right (fun e => n (proj2 (ublock_eqb_spec a b) e)) end) k (map fst (gs_index g))) as [Y|Y].
      - apply steps_sorted. specialize (T (render_block (k, map_get (gs_index g) k))).
        destruct k as [lo hi]. apply T. apply (blocks_of_font fs g (fs_seed fs) stored Hh).
        exists (lo, hi). auto.
      - rewrite (map_get_out _ _ Y). constructor. }
    rewrite <- (map_in_block (fun s => go_murmur3 s (fs_seed fs))).
    eapply Permutation_NoDup; [|exact D].
    rewrite (ho_perm _ _ _ Hh k Ik), map_map. reflexivity.
  - intros NC b Ib i Li. apply (blocks_of_font fs g (fs_seed fs) stored Hh) in Ib.
    destruct Ib as (k & Ik & ->).
    destruct (block_hashes g (fs_seed fs) stored Hh NC k (ho_known _ _ _ Hh k Ik)) as [_ So].
    destruct k as [lo hi]. cbn [render_block b_hash] in *. apply (strongly_sorted_lt_nth _ So). lia.
Qed.

Lemma Forall2_nth_error_ex {A B} (R : A -> B -> Prop) l1 l2 : Forall2 R l1 l2 ->
  forall n a, nth_error l1 n = Some a -> exists b, nth_error l2 n = Some b /\ R a b.
Proof.
  induction 1 as [|a b t1 t2 Hab F IH]; intros [|n] x E; try discriminate; simpl in *.
  - injection E as <-. exists b. auto.
  - apply IH. exact E.
Qed.
