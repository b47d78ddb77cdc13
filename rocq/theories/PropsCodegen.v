(** * Properties C38, C40 - C44, C49 - C52: the font generator *)
From Coq Require Import ZArith String Permutation Sorted.
From Verif Require Import Prim Str M3Hash Geom FontDefs Blit Spec SpecPaint SpecCodegen Codegen.
From Verif Require Import PrimFacts LookupProofs SortProofs PackProofs TrimProofs CgIndex CgFont CgGenerate CgMore HexProofs.
From Verif Require Import LayoutProofs TextProofs.
Local Open Scope N_scope.
Local Open Scope list_scope.
Local Notation length := List.length.

(** C38 *)
Theorem C38_same_hash : forall s seed limit,
  Forall (fun c => c < 2 ^ 32) s -> N.of_nat (length s) <= limit ->
  grapheme_cluster s seed limit = (go_murmur3 s seed, str_len s).
Proof. exact go_rust_hash. Qed.
Print Assumptions C38_same_hash.

(** "test", and a cat with a variation selector: values of src/m3hash.rs:78-118 *)
Example C38_case : go_murmur3 [0x1F4FA; 0xFE0F] 0 = 0x7C5E300 /\ go_murmur3 [0x1F638] 0 = 0x86E5DD9A.
Proof. split; vm_compute; reflexivity. Qed.

(** C40: the header, the length, and the pixels of the packed record *)
Theorem C40_packed_record : forall f off m w h y,
  rect m w h -> (0 < w < 256)%nat -> (0 < h < 256)%nat -> y < 256 ->
  exists words, convert_to_pattern m y = Ret words /\
    N.of_nat (length words) = 1 + (N.of_nat w * N.of_nat h + 31) / 32 /\
    nth 0 words 0 = N.of_nat w * 65536 + N.of_nat h * 256 + y /\
    (data_at f off words -> shows f off m w h y).
Proof. exact convert_shows. Qed.
Print Assumptions C40_packed_record.

(** C40: and painting it inverts the pixels the matrix has set *)
Theorem C40_paint_packed : forall cf F fb clip c st s gs off m w h y words,
  cfg_ok cf -> fontset_ok F -> is_frbuf fb -> paintable clip -> px (cmin clip) < 320 ->
  cursor_fits cf F c s -> s <> [] -> nth_error s 0 <> Some 10 ->
  choose F st s = (gs, off, [], true) ->
  rect m w h -> (0 < w < 256)%nat -> (0 < h < 256)%nat -> y < 256 ->
  convert_to_pattern m y = Ret words -> data_at (F gs) off words ->
  let c1 := seek F clip c (N.of_nat w) in
  let x0 := cx c1 + 1 in
  let y0 := cy c1 + y in
  y0 <= py (cmax clip) ->
  exists fb', paint_str cf F fb clip c st s = Ret (fb', after F gs off c1) /\ is_frbuf fb' /\
    forall X Y, X < STORED_WIDTH -> Y < LINES ->
      pixel fb' X Y = xorb (pixel fb X Y)
        ((x0 <=? X) && (y0 <=? Y) && (py (cmin clip) <=? Y) && (Y <? py (cmax clip))
         && is_set m (N.to_nat (Y - y0)) (N.to_nat (X - x0))).
Proof.
  intros cf F fb clip c st s gs off m w h y words Hm HF Hfb Hp Hx Hc Hs H10 Ech R Lw Lh Ly Ew D.
  destruct (convert_shows (F gs) off m w h y R Lw Lh Ly) as (words' & Ew' & _ & _ & Sh).
  rewrite Ew in Ew'. injection Ew' as <-.
  exact (paint_shows cf F fb clip c st s gs off m w h y Hm HF Hfb Hp Hx Hc Hs H10 Ech R (Sh D)).
Qed.
Print Assumptions C40_paint_packed.

(** An L of 3 by 4 pixels, 12 of 32 bits used *)
Example C40_case :
  convert_to_pattern [[1; 0; 0]; [1; 0; 0]; [1; 0; 0]; [1; 1; 1]]%Z 5 = Ret [0x030405; 0x24F00000].
Proof. vm_compute. reflexivity. Qed.

(** C49: the documented order, "first left to right, then top to bottom, with the
    glyph's top-left pixel in the most significant bit" (matrix.go:30-32,
    templates.go:145-146): pixel (r, c) at bit r*w+c of the stream *)
Definition documented_order : Prop := forall m w h y words,
  rect m w h -> (0 < w < 256)%nat -> (0 < h < 256)%nat -> convert_to_pattern m y = Ret words ->
  forall r c, (r < h)%nat -> (c < w)%nat ->
    let n := N.of_nat (r * w + c) in
    N.testbit (nth (S (N.to_nat (n / 32))) words 0) (31 - n mod 32) = is_set m r c.

Theorem C49_documented_order_refuted : ~ documented_order.
Proof.
  intros D. specialize (D [[1; 0]]%Z 2%nat 1%nat 0 [0x20100; 0x40000000]).
  specialize (D ltac:(split; [reflexivity|repeat constructor]) ltac:(lia) ltac:(lia) ltac:(vm_compute; reflexivity)).
  specialize (D 0%nat 0%nat ltac:(lia) ltac:(lia)). vm_compute in D. discriminate.
Qed.
Print Assumptions C49_documented_order_refuted.

(** The order there is: rows top to bottom, each row right to left, zeros after it *)
Theorem C49_actual_order : forall m w h y,
  rect m w h -> (0 < w < 256)%nat -> (0 < h < 256)%nat ->
  exists words, convert_to_pattern m y = Ret words /\
  (forall r c, (r < h)%nat -> (c < w)%nat ->
    let n := N.of_nat (r * w + (w - 1 - c)) in
    N.testbit (nth (S (N.to_nat (n / 32))) words 0) (31 - n mod 32) = is_set m r c) /\
  (forall n, N.of_nat (w * h) <= n -> n / 32 < N.of_nat (length words) - 1 ->
    N.testbit (nth (S (N.to_nat (n / 32))) words 0) (31 - n mod 32) = false).
Proof.
  intros m w h y R Lw Lh.
  destruct (convert_ok m w h y R) as (words & E & P); try (change (2 ^ 32) with 4294967296; lia).
  exists words. split; [exact E|]. split.
  - intros r c Hr Hc n.
    assert (En : n = N.of_nat r * N.of_nat w + (N.of_nat w - 1 - N.of_nat c)) by (unfold n; lia).
    assert (Hn : n < N.of_nat w * N.of_nat h).
    { rewrite En. assert (N.of_nat r * N.of_nat w + N.of_nat w <= N.of_nat h * N.of_nat w); [|lia].
      replace (N.of_nat r * N.of_nat w + N.of_nat w) with ((N.of_nat r + 1) * N.of_nat w) by lia.
      apply N.mul_le_mono_r. lia. }
    rewrite (pm_bits _ _ _ _ _ P n Hn). unfold stream. rewrite En.
    rewrite div_row, mod_row by lia. f_equal; lia.
  - intros n Hn Hl. pose proof (pm_length _ _ _ _ _ P). apply (pm_padding _ _ _ _ _ P); lia.
Qed.
Print Assumptions C49_actual_order.

(** C41: if the matrix has ink, it is all kept, each side is trimmed as far as it
    is blank but not further than its limit, and there is no panic *)
Theorem C41_trim_keeps_ink : forall l m w h,
  rect m w h -> nonneg m -> N.of_nat h < 2 ^ 32 -> (exists r c, is_set m r c = true) ->
  exists m' x y w' h', trim_to l m = Ret (m', N.of_nat y) /\ window m m' w' h' x y /\
    (0 < w')%nat /\ (0 < h')%nat /\
    tight (l_top l) (l_right l) (l_bottom l) (l_left l) m w h w' h' x y.
Proof.
  intros l m w h R Hn H32 Hi.
  assert (Hh : (0 < h)%nat).
  { destruct Hi as (r & c & Hi). destruct R as [Rl _]. destruct h; [|lia].
    destruct m; [|discriminate]. unfold is_set in Hi. destruct r, c; discriminate. }
  destruct (trim_spec l m w h R Hn Hh H32) as [(m' & y & x & w' & h' & E & _ & W & _ & _ & _ & _ & T)|(_ & N & _)].
  - destruct Hi as (r & c & Hi). pose proof (win_outside _ _ _ _ _ _ W r c Hi).
    exists m', x, y, w', h'. split; [exact E|]. split; [exact W|].
    split; [lia|]. split; [lia|].
    apply T; intros ->; destruct W as [[Wl _] _ _]; simpl in Wl; lia.
  - exfalso. apply N. exact Hi.
Qed.
Print Assumptions C41_trim_keeps_ink.

(** C41 for a blank matrix: either nothing is left out of place and the limits are
    respected, or there is a panic; a panic needs limits that exceed the matrix *)
Theorem C41_trim_blank : forall l m w h,
  rect m w h -> nonneg m -> (0 < h)%nat -> N.of_nat h < 2 ^ 32 ->
  (exists m' x y w' h', trim_to l m = Ret (m', N.of_nat y) /\ window m m' w' h' x y /\
     (y + h' <= h)%nat /\ (w' <= w)%nat /\
     (w <= w' + Z.to_nat (l_left l) + Z.to_nat (l_right l))%nat /\
     (w' = 0%nat \/ h <= h' + Z.to_nat (l_top l) + Z.to_nat (l_bottom l))%nat) \/
  (trim_to l m = Panic /\ (forall r c, is_set m r c = false) /\
     ((w < Z.to_nat (l_left l) + Z.to_nat (l_right l))%nat \/
      (h < Z.to_nat (l_top l) + Z.to_nat (l_bottom l))%nat)).
Proof.
  intros l m w h R Hn Hh H32.
  destruct (trim_spec l m w h R Hn Hh H32) as [(m' & y & x & w' & h' & E & _ & W & A & B & C & D & _)|(E & N & C)].
  - left. exists m', x, y, w', h'. auto 10.
  - right. split; [exact E|]. split; [|exact C]. intros r c.
    destruct (is_set m r c) eqn:Es; [|reflexivity]. exfalso. apply N. exists r, c. exact Es.
Qed.
Print Assumptions C41_trim_blank.

(** Trimming does not always return: a blank 2 by 2 cell with limits 1 left, 2 right *)
Theorem C41_always_returns_refuted :
  ~ (forall l m w h, rect m w h -> nonneg m -> (0 < h)%nat -> N.of_nat h < 2 ^ 32 ->
     exists r, trim_to l m = Ret r).
Proof.
  intros A. destruct (A (Limits 0 2 0 1) [[0; 0]; [0; 0]]%Z 2%nat 2%nat) as (r & E).
  - split; [reflexivity|repeat constructor].
  - repeat constructor; lia.
  - lia.
  - lia.
  - vm_compute in E. discriminate.
Qed.
Print Assumptions C41_always_returns_refuted.

Example C41_case :
  trim_to (Limits 1 9 9 9) [[0; 0; 0; 0]; [0; 0; 0; 0]; [0; 1; 0; 0]; [0; 1; 1; 0]; [0; 0; 0; 0]]%Z
  = Ret ([[0; 0]; [1; 0]; [1; 1]]%Z, 1).
Proof. vm_compute. reflexivity. Qed.

(** C42 *)
Definition insert_all (seed : N) (l : list (str * N)) : res (list (ublock * block_index)) :=
  fold_res (fun ix p => gs_insert ix (fst p) seed (snd p)) l [].

Lemma insert_all_holds seed l : forall ix stored ix', holds seed ix stored ->
  fold_res (fun ix p => gs_insert ix (fst p) seed (snd p)) l ix = Ret ix' ->
  holds seed ix' (stored ++ l).
Proof.
  induction l as [|[cl off] t IH]; intros ix stored ix' H E; cbn [fold_res] in E.
  - injection E as <-. rewrite app_nil_r. exact H.
  - apply bind_ret_inv in E. destruct E as (ix1 & E1 & E2).
    pose proof (IH ix1 (stored ++ [(cl, off)]) ix' (insert_holds _ _ _ _ _ _ H E1) E2) as H'.
    rewrite <- app_assoc in H'. exact H'.
Qed.

Theorem C42_index_sorted_complete : forall seed l ix k,
  insert_all seed l = Ret ix -> In k known_blocks ->
  let dex := map_get ix k in
  Permutation (map (fun e => (e_cluster e, e_offset e)) dex) (in_block k l) /\
  Forall (fun e => e_hash e = go_murmur3 (e_cluster e) seed) dex /\
  (forall i j, (i < j < length dex)%nat ->
     nth i (map e_hash dex) 0 <= nth j (map e_hash dex) 0) /\
  StronglySorted (fun a b => b < a) (cluster_length_list dex) /\
  (forall n, In n (cluster_length_list dex) <->
     exists p, In p (in_block k l) /\ N.of_nat (length (fst p)) = n).
Proof.
  intros seed l ix k E Ik dex.
  pose proof (insert_all_holds seed l [] [] ix (holds_nil seed) E) as H. cbn [app] in H.
  pose proof (ho_perm _ _ _ H k Ik) as P. fold dex in P.
  pose proof (ho_sorted _ _ _ H k Ik) as So. fold dex in So.
  split; [|split; [|split; [|split]]].
  - rewrite P, map_map. cbn [entry_of e_cluster e_offset].
    rewrite map_ext with (g := fun p => p) by (intros [a b]; reflexivity). rewrite map_id. reflexivity.
  - eapply Permutation_Forall; [symmetry; exact P|]. rewrite Forall_map. apply Forall_forall.
    intros [cl off] _. reflexivity.
  - intros i j L. clear - So L. revert i j L. induction So as [|a t So IH Ha]; intros i j L; simpl in L; [lia|].
    destruct i as [|i], j as [|j]; try lia; simpl.
    + rewrite Forall_forall in Ha. destruct (nth_error t j) as [e|] eqn:En.
      * rewrite (nth_error_nth (map e_hash t) j 0 (x := e_hash e)) by (rewrite nth_error_map, En; reflexivity).
        apply Ha. eapply nth_error_In. exact En.
      * apply nth_error_None in En. lia.
    + apply IH. lia.
  - apply lengths_desc.
  - intros n. rewrite lengths_in. split.
    + intros (e & Ie & <-). eapply Permutation_in in Ie; [|exact P].
      apply in_map_iff in Ie. destruct Ie as (p & <- & Ip). exists p. auto.
    + intros (p & Ip & <-). exists (entry_of seed p). split; [|reflexivity].
      eapply Permutation_in; [symmetry; exact P|]. apply in_map. exact Ip.
Qed.
Print Assumptions C42_index_sorted_complete.

(** The insert sequence panics exactly when some cluster starts in no known block *)
Theorem C42_insert_returns : forall seed l,
  (exists ix, insert_all seed l = Ret ix) <->
  Forall (fun p => exists k, In k known_blocks /\ starts_in k (fst p) = true) l.
Proof.
  intros seed l. unfold insert_all. split.
  - intros (ix & E). apply (ho_starts seed ix l).
    exact (insert_all_holds seed l [] [] ix (holds_nil seed) E).
  - generalize (@nil (ublock * block_index)) as ix. induction l as [|[cl off] t IH]; intros ix F; cbn [fold_res].
    + exists ix. reflexivity.
    + inversion F as [|x y (k & Ik & Sk) F']; subst. cbn [fst snd] in *.
      rewrite (gs_insert_ok ix cl seed off k Ik Sk). cbn [bind]. apply IH. exact F'.
Qed.
Print Assumptions C42_insert_returns.

(** Without hash collisions the tables do not depend on the sorting algorithm *)
Theorem C42_any_sort : forall seed l ix k other,
  insert_all seed l = Ret ix -> In k known_blocks ->
  no_collisions (fun s => go_murmur3 s seed) known_blocks (map fst l) ->
  Permutation other (map (entry_of seed) (in_block k l)) ->
  StronglySorted (fun a b => e_hash a <= e_hash b) other ->
  map_get ix k = other.
Proof.
  intros seed l ix k other E Ik NC P So.
  pose proof (insert_all_holds seed l [] [] ix (holds_nil seed) E) as H. cbn [app] in H.
  apply (sorted_unique e_hash).
  - apply (ho_sorted _ _ _ H k Ik).
  - exact So.
  - rewrite (ho_perm _ _ _ H k Ik). symmetry. exact P.
  - eapply Permutation_NoDup; [symmetry; apply Permutation_map; apply (ho_perm _ _ _ H k Ik)|].
    rewrite map_map. cbn [entry_of e_hash].
    rewrite (map_in_block (fun s => go_murmur3 s seed)). apply (NC k Ik).
Qed.
Print Assumptions C42_any_sort.

Example C42_case :
  match insert_all 0 [([66], 7); ([65; 0x300], 20); ([65], 3); ([0x1F638], 9)] with
  | Ret ix => map (fun e => (e_cluster e, e_offset e)) (map_get ix (0, 0x7F))
                = [([65], 3); ([66], 7); ([65; 0x300], 20)] /\
              cluster_length_list (map_get ix (0, 0x7F)) = [2; 1] /\
              length (map_get ix (0x1F600, 0x1F64F)) = 1%nat
  | Panic => False
  end.
Proof. vm_compute. repeat split; reflexivity. Qed.

(** C43: the n-th cluster's offset is where the n-th pattern starts *)
Theorem C43_offsets : forall seed pl g, new_glyph_set_from pl seed = Ret g ->
  gs_code g = concat (map bp_words pl) /\ gs_len g = N.of_nat (length (gs_code g)) /\
  forall n p, nth_error pl n = Some p ->
    exists cl k off, string_from_hex_gc (cs_hex (bp_cs p)) = Ret cl /\
      In k known_blocks /\ starts_in k cl = true /\
      In (Entry (go_murmur3 cl seed) cl off) (map_get (gs_index g) k) /\
      off = N.of_nat (length (concat (firstn n (map bp_words pl)))) /\
      (forall i, (i < length (bp_words p))%nat ->
         nth (N.to_nat off + i) (gs_code g) 0 = nth i (bp_words p) 0).
Proof.
  intros seed pl g E. destruct (new_set_inv seed pl g E) as (cls & F & Hc & Hl & Hh).
  split; [exact Hc|]. split; [exact Hl|]. intros n p En.
  destruct (Forall2_nth_error_ex _ _ _ F n p En) as (cl & Ecl & Hcl).
  assert (Ln : (n < length (map bp_words pl))%nat).
  { rewrite map_length. apply nth_error_Some. congruence. }
  set (off := nth n (offsets_from 0 (map bp_words pl)) 0).
  assert (Ioff : In (cl, off) (combine cls (offsets_from 0 (map bp_words pl)))).
  { eapply combine_nth_error; [exact Ecl|]. apply nth_error_nth'. rewrite offsets_length. exact Ln. }
  destruct (stored_entry g seed _ Hh cl off Ioff) as (k & Ik & Sk & _ & Ie).
  assert (Eo : off = N.of_nat (length (concat (firstn n (map bp_words pl))))).
  { unfold off. rewrite offsets_nth by exact Ln. lia. }
  assert (Eb : nth n (map bp_words pl) [] = bp_words p).
  { apply nth_error_nth. rewrite nth_error_map, En. reflexivity. }
  exists cl, k, off. repeat (split; [assumption|]).
  intros i Li. rewrite Eo, Hc, Nnat.Nat2N.id. rewrite concat_nth_record; rewrite ?Eb; auto.
Qed.
Print Assumptions C43_offsets.

(** C43: an alias gets the offset of its canonical cluster.  Without collisions the
    index then holds exactly the base list and the aliases. *)
Theorem C43_aliases : forall seed pl g0 al g cls pairs,
  new_glyph_set_from pl seed = Ret g0 -> add_aliases g0 al seed = Ret g ->
  Forall2 (fun p cl => string_from_hex_gc (cs_hex (bp_cs p)) = Ret cl) pl cls ->
  Forall2 parses al pairs ->
  (forall canon alias, In (canon, alias) pairs -> In canon cls) ->
  no_collisions (fun s => go_murmur3 s seed) known_blocks (cls ++ map snd pairs) ->
  gs_code g = gs_code g0 /\
  exists stored, with_aliases (combine cls (offsets_from 0 (map bp_words pl))) pairs stored /\
    forall k, In k known_blocks ->
      Permutation (map (fun e => (e_cluster e, e_offset e)) (map_get (gs_index g) k)) (in_block k stored).
Proof.
  intros seed pl g0 al g cls pairs E Ea Hcls Hpairs Hcanon Hnc.
  destruct (new_set_inv seed pl g0 E) as (cls0 & F0 & Hc & Hl & Hh).
  assert (cls0 = cls) as ->.
  { clear - F0 Hcls. revert cls Hcls. induction F0 as [|p cl pl cls0 E F0 IH]; intros cls F.
    - inversion F. reflexivity.
    - inversion F as [|x y u v E' F']; subst. rewrite E in E'. injection E' as ->.
      f_equal. apply IH. exact F'. }
  unfold add_aliases in Ea. apply bind_ret_inv in Ea. destruct Ea as (ix & Ei & Ea). injection Ea as <-.
  cbn [gs_code gs_index]. split; [reflexivity|].
  destruct (add_aliases_inv _ _ _ _ _ Hh Ei) as (pairs0 & stored & Fp0 & W & Hs).
  assert (pairs0 = pairs) as ->.
  { clear - Fp0 Hpairs. revert pairs Hpairs. induction Fp0 as [|a p al pairs0 [E1 E2] F0 IH]; intros pairs F.
    - inversion F. reflexivity.
    - inversion F as [|x y u v [E1' E2'] F']; subst. rewrite E1 in E1'. rewrite E2 in E2'.
      injection E1' as E1'. injection E2' as E2'. f_equal; [|apply IH; exact F'].
      destruct p, y; simpl in *; congruence. }
  assert (Lc : length cls = length (offsets_from 0 (map bp_words pl))).
  { rewrite offsets_length, map_length. symmetry. eapply Forall2_length'. exact F0. }
  exists stored. split.
  - apply (hash_aliases_exact seed); [exact W| |].
    + rewrite (hash_aliases_clusters _ _ _ _ W), combine_fst by exact Lc. exact Hnc.
    + intros canon alias I. rewrite combine_fst by exact Lc. apply (Hcanon canon alias I).
  - intros k Ik. rewrite (ho_perm _ _ _ Hs k Ik), map_map. cbn [entry_of e_cluster e_offset].
    rewrite map_ext with (g := fun p => p) by (intros [a b]; reflexivity). rewrite map_id. reflexivity.
Qed.
Print Assumptions C43_aliases.

Example C43_case :
  match (g <- new_glyph_set_from [BlitPattern [1; 2; 3] (CharSpec [52; 49] 0 0);
                                  BlitPattern [4; 5] (CharSpec [52; 50] 0 1)] 0 ;;
         add_aliases g [GCAlias [52; 50] [52; 51]] 0) with
  | Ret g => gs_code g = [1; 2; 3; 4; 5] /\
             In ([67], 3) (map (fun e => (e_cluster e, e_offset e)) (map_get (gs_index g) (0, 0x7F)))
  | Panic => False
  end.
Proof. vm_compute. split; [reflexivity|tauto]. Qed.

(** C44.  What a generated font should be: *)
Record well_made (fs : fontspec) (img : image) (csl : list charspec) (cls : list str)
  (pairs : list (str * str)) (fnt : font) : Prop := {
  (** its tables satisfy what painting relies on; *)
  wm_ok : font_ok fnt;
  (** every listed cluster is found, whole, and its glyph is its cell of the sheet,
      trimmed as closely as the limits allow; *)
  wm_glyphs : forall n cs cl, nth_error csl n = Some cs -> nth_error cls n = Some cl ->
    exists off x, glyph_for fnt cl = Some (off, length cl) /\
      draws fnt off (grid_cell img fs (cs_row cs) (cs_col cs)) x /\
      let l := trim_limits fs (cs_row cs) (cs_col cs) in
      cut_close (l_top l) (l_right l) (l_bottom l) (l_left l) fnt off
        (grid_cell img fs (cs_row cs) (cs_col cs)) (cell_size fs) x;
  (** every alias is found, whole, with the glyph of its canonical cluster *)
  wm_aliases : forall canon alias, In (canon, alias) pairs ->
    exists off, glyph_for fnt canon = Some (off, length canon) /\
                glyph_for fnt alias = Some (off, length alias)
}.

Theorem C44_generated_font : forall fs img csl al cls pairs fnt,
  generate fs img csl al = Ret fnt ->
  Forall2 (fun cs cl => string_from_hex_gc (cs_hex cs) = Ret cl) csl cls ->
  Forall2 parses al pairs ->
  cell_size fs = Z.to_nat (fs_size fs) -> (0 < fs_size fs <= 32)%Z ->
  Forall (fun cs => drawable img fs (cs_row cs) (cs_col cs)) csl ->
  N.of_nat (length csl) < 2 ^ 25 ->
  (forall canon alias, In (canon, alias) pairs -> In canon cls) ->
  no_collisions (fun s => go_murmur3 s (fs_seed fs)) known_blocks (cls ++ map snd pairs) ->
  well_made fs img csl cls pairs fnt.
Proof.
  intros fs img csl al cls pairs fnt H1 H2 H3 H4 H5 H6 H7 H8 H9. split.
  - exact (generated_ok fs img csl al cls pairs fnt H1 H2 H3 H4 H5 H6 H7 H8 H9).
  - exact (generated_glyphs fs img csl al cls pairs fnt H1 H2 H3 H4 H5 H6 H7 H8 H9).
  - exact (generated_aliases fs img csl al cls pairs fnt H1 H2 H3 H4 H5 H6 H7 H8 H9).
Qed.
Print Assumptions C44_generated_font.

(** C44: painting such a glyph draws the cell of the sheet, its top at the cursor *)
Theorem C44_paint_generated : forall cf F fb clip c st s gs off cell x,
  cfg_ok cf -> fontset_ok F -> is_frbuf fb -> paintable clip -> px (cmin clip) < 320 ->
  cursor_fits cf F c s -> s <> [] -> nth_error s 0 <> Some 10 ->
  choose F st s = (gs, off, [], true) -> draws (F gs) off cell x ->
  let c1 := seek F clip c (gl_w (F gs) off) in
  cy c1 + gl_y (F gs) off <= py (cmax clip) ->
  exists fb', paint_str cf F fb clip c st s = Ret (fb', after F gs off c1) /\ is_frbuf fb' /\
    forall X Y, X < STORED_WIDTH -> Y < LINES ->
      pixel fb' X Y = xorb (pixel fb X Y)
        ((cx c1 + 1 <=? X) && (cy c1 <=? Y) && (py (cmin clip) <=? Y) && (Y <? py (cmax clip))
         && is_set cell (N.to_nat (Y - cy c1)) (x + N.to_nat (X - (cx c1 + 1)))).
Proof. exact paint_draws. Qed.
Print Assumptions C44_paint_generated.

(** A sheet with two 4 by 4 cells, an L and a dot, and an alias of the dot *)
Definition case_spec := FontSpec "Test" 4 2 2 2 "proportional" 0.
Definition case_img := Image 8 (fun x y =>
  if (existsb (fun p => (fst p =? x) && (snd p =? y)) [(3, 3); (3, 4); (4, 4); (9, 2)])%Z
  then 0 else 0xFFFF).
Definition case_list := [CharSpec [52; 49] 0 0; CharSpec [52; 50] 0 1].
Definition case_aliases := [GCAlias [52; 50] [52; 51; 45; 51; 48; 48]].

Example C44_case : exists fnt, generate case_spec case_img case_list case_aliases = Ret fnt /\
  well_made case_spec case_img case_list [[65]; [66]] [([66], [67; 0x300])] fnt /\
  glyph_for fnt [65] = Some (0, 1%nat) /\ glyph_for fnt [67; 0x300; 68] = Some (2, 2%nat) /\
  (gl_w fnt 0, gl_h fnt 0, gl_y fnt 0) = (2, 2, 1).
Proof.
  destruct (generate case_spec case_img case_list case_aliases) as [fnt|] eqn:E; [|vm_compute in E; discriminate].
  exists fnt. split; [reflexivity|]. split.
  - apply (C44_generated_font _ _ _ case_aliases); [exact E|..]; try reflexivity; try (cbn; lia).
    + repeat constructor.
    + repeat constructor.
    + constructor; [|constructor; [|constructor]]; left.
      * exists 1%nat, 1%nat. vm_compute. reflexivity.
      * exists 0%nat, 1%nat. vm_compute. reflexivity.
    + intros canon alias [H|[]]. injection H as <- <-. right. left. reflexivity.
    + intros k Ik. repeat (destruct Ik as [<-|Ik]; [vm_compute; repeat constructor; simpl; intuition discriminate|]).
      destruct Ik.
  - vm_compute in E. injection E as <-. vm_compute. repeat split.
Qed.

(** C50 *)
Theorem C50_hex_round_trip : forall cluster,
  cluster <> [] -> Forall (fun c => is_char c = true) cluster ->
  string_from_hex_gc (hex_name cluster) = Ret cluster.
Proof. exact hex_name_read. Qed.
Print Assumptions C50_hex_round_trip.

(** "1f3c4-200d-2640-fe0f", the example of charspec.go:26-35; upper case and
    leading zeros are read too, an empty part is a panic *)
Example C50_case :
  hex_name [0x1f3c4; 0x200d; 0x2640; 0xfe0f] =
    [49; 102; 51; 99; 52; 45; 50; 48; 48; 100; 45; 50; 54; 52; 48; 45; 102; 101; 48; 102] /\
  string_from_hex_gc [48; 49; 70; 51; 67; 52] = Ret [0x1f3c4] /\
  string_from_hex_gc [52; 49; 45] = Panic.
Proof. repeat split; vm_compute; reflexivity. Qed.

(** C51: the unit test in the generated file (templates.go:157-164) passes exactly
    when no two clusters of a block have the same hash *)
Theorem C51_test_detects_collisions : forall fs img csl al cls pairs fnt,
  generate fs img csl al = Ret fnt ->
  Forall2 (fun cs cl => string_from_hex_gc (cs_hex cs) = Ret cl) csl cls ->
  Forall2 parses al pairs ->
  Forall (fun b => forall i, (i + 1 < length (b_hash b))%nat ->
                     nth i (b_hash b) 0 < nth (i + 1) (b_hash b) 0) (f_blocks fnt) <->
  no_collisions (fun s => go_murmur3 s (fs_seed fs)) known_blocks (cls ++ map snd pairs).
Proof. exact unit_test_detects. Qed.
Print Assumptions C51_test_detects_collisions.

(** A cluster listed twice: the hash table has the hash twice *)
Example C51_case :
  match generate case_spec case_img [CharSpec [52; 49] 0 0; CharSpec [52; 49] 0 1] [] with
  | Ret fnt => map (fun b => match b_hash b with [h1; h2] => h1 =? h2 | _ => false end) (f_blocks fnt) = [true]
  | Panic => False
  end.
Proof. vm_compute. reflexivity. Qed.

(** C52 *)
Theorem C52_generation_succeeds : forall fs img csl al cls pairs,
  Forall2 (fun cs cl => string_from_hex_gc (cs_hex cs) = Ret cl) csl cls ->
  Forall2 parses al pairs ->
  (fs_size fs + fs_gutter fs <> 0)%Z -> (0 < cell_size fs < 256)%nat ->
  Forall (fun cs => on_sheet img fs (cs_row cs) (cs_col cs) /\
                    drawable img fs (cs_row cs) (cs_col cs)) csl ->
  (forall canon alias, In (canon, alias) pairs -> In canon cls) ->
  Forall (fun cl => exists k, In k known_blocks /\ starts_in k cl = true) (cls ++ map snd pairs) ->
  exists fnt, generate fs img csl al = Ret fnt.
Proof. exact generate_returns. Qed.
Print Assumptions C52_generation_succeeds.

(** Outside of these conditions: a cell outside of the sheet, an unknown canonical
    cluster, a character (Cyrillic) of no known block *)
Example C52_case :
  generate case_spec case_img [CharSpec [52; 49] 1 0] [] = Panic /\
  generate case_spec case_img case_list [GCAlias [52; 52] [52; 53]] = Panic /\
  generate case_spec case_img [CharSpec [52; 49; 48] 0 0] [] = Panic.
Proof. repeat split; vm_compute; reflexivity. Qed.
