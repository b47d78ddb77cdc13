(** * The rendered font: its DATA, and what lookup finds in it *)
From Coq Require Import ZArith Permutation Sorted.
From Verif Require Import PrimFacts Str M3Hash FontDefs SpecPaint SpecCodegen Codegen LookupProofs SortProofs CgIndex.

(** ** NewGlyphSetFrom *)
Lemma add_patterns_inv seed pl : forall g stored g',
  holds seed (gs_index g) stored -> gs_len g = N.of_nat (length (gs_code g)) ->
  fold_res (add_pattern seed) pl g = Ret g' ->
  exists cls, Forall2 (fun p cl => string_from_hex_gc (cs_hex (bp_cs p)) = Ret cl) pl cls /\
    gs_code g' = gs_code g ++ concat (map bp_words pl) /\
    gs_len g' = N.of_nat (length (gs_code g')) /\
    holds seed (gs_index g') (stored ++ combine cls (offsets_from (gs_len g) (map bp_words pl))).
Proof.
  induction pl as [|p t IH]; intros g stored g' H L E; cbn [fold_res] in E.
  - injection E as <-. exists []. simpl. rewrite !app_nil_r. auto.
  - apply bind_ret_inv in E. destruct E as (g1 & E1 & E).
    unfold add_pattern, cluster_of in E1. apply bind_ret_inv in E1. destruct E1 as (cl & Ec & E1).
    apply bind_ret_inv in E1. destruct E1 as (ix & Ei & E1). injection E1 as <-.
    pose proof (insert_holds _ _ _ _ _ _ H Ei) as H1.
    eapply IH in E; [|exact H1|cbn [gs_len gs_code]; rewrite app_length; lia].
    cbn [gs_len gs_code gs_index] in E. destruct E as (cls & F & Hc & Hl & Hh).
    exists (cl :: cls). split; [constructor; assumption|].
    cbn [map concat offsets_from combine]. rewrite app_assoc. split; [exact Hc|]. split; [exact Hl|].
    replace (stored ++ (cl, gs_len g) :: combine cls (offsets_from (gs_len g + N.of_nat (length (bp_words p))) (map bp_words t)))
      with ((stored ++ [(cl, gs_len g)]) ++ combine cls (offsets_from (gs_len g + N.of_nat (length (bp_words p))) (map bp_words t)))
      by (rewrite <- app_assoc; reflexivity).
    exact Hh.
Qed.

Lemma new_set_inv seed pl g : new_glyph_set_from pl seed = Ret g ->
  exists cls, Forall2 (fun p cl => string_from_hex_gc (cs_hex (bp_cs p)) = Ret cl) pl cls /\
    gs_code g = concat (map bp_words pl) /\ gs_len g = N.of_nat (length (gs_code g)) /\
    holds seed (gs_index g) (combine cls (offsets_from 0 (map bp_words pl))).
Proof.
  intros E. exact (add_patterns_inv seed pl (GlyphSet [] 0 []) [] g (holds_nil seed) eq_refl E).
Qed.

(** NewGlyphSetFrom returns if every cluster can be parsed and starts in a known block *)
Lemma add_patterns_ok seed pl cls : forall g,
  Forall2 (fun p cl => string_from_hex_gc (cs_hex (bp_cs p)) = Ret cl /\
                       exists k, In k known_blocks /\ starts_in k cl = true) pl cls ->
  exists g', fold_res (add_pattern seed) pl g = Ret g'.
Proof.
  intros g F. revert g. induction F as [|p cl pl cls [Ec (k & Ik & Sk)] F IH]; intros g; cbn [fold_res].
  - exists g. reflexivity.
  - unfold add_pattern at 1, cluster_of. rewrite Ec. cbn [bind].
    rewrite (gs_insert_ok _ _ _ _ k Ik Sk). cbn [bind]. apply IH.
Qed.

(** ** Offsets *)
Lemma offsets_length o rs : length (offsets_from o rs) = length rs.
Proof. revert o; induction rs as [|r t IH]; intros o; simpl; [reflexivity|rewrite IH; reflexivity]. Qed.

Lemma offsets_nth rs : forall n o, (n < length rs)%nat ->
  nth n (offsets_from o rs) 0 = o + N.of_nat (length (concat (firstn n rs))).
Proof.
  induction rs as [|r t IH]; intros n o L; simpl in L; [lia|].
  destruct n as [|n]; cbn [offsets_from nth firstn concat length]; [lia|].
  rewrite IH by lia. rewrite app_length. lia.
Qed.

(** The records stand where the offsets say *)
Lemma concat_nth_record (rs : list (list N)) n i : (n < length rs)%nat -> (i < length (nth n rs []))%nat ->
  nth (length (concat (firstn n rs)) + i) (concat rs) 0 = nth i (nth n rs []) 0.
Proof.
  revert n; induction rs as [|r t IH]; intros n L Li; simpl in L; [lia|].
  destruct n as [|n]; cbn [firstn concat length nth plus] in *.
  - apply app_nth1. exact Li.
  - rewrite app_length. rewrite app_nth2 by lia.
    replace (length r + length (concat (firstn n t)) + i - length r)%nat
      with (length (concat (firstn n t)) + i)%nat by lia.
    apply IH; [lia|exact Li].
Qed.

(** ** Aliases *)
Definition parses (a : gcalias) (p : str * str) : Prop :=
  string_from_hex_gc (canon_hex a) = Ret (fst p) /\ string_from_hex_gc (alias_hex a) = Ret (snd p).

Lemma add_alias_inv seed ix a ix' : add_alias seed ix a = Ret ix' ->
  exists canon alias off k, parses a (canon, alias) /\ In k known_blocks /\ starts_in k canon = true /\
    find_data_offset ix k canon seed = Ret off /\ gs_insert ix alias seed off = Ret ix'.
Proof.
  unfold add_alias. intros E.
  apply bind_ret_inv in E. destruct E as (canon & Ec & E).
  apply bind_ret_inv in E. destruct E as (c & Er & E).
  apply bind_ret_inv in E. destruct E as (k & Ek & E).
  apply bind_ret_inv in E. destruct E as (off & Eo & E).
  apply bind_ret_inv in E. destruct E as (alias & Ea & E).
  exists canon, alias, off, k. apply ublock_of_ret in Ek.
  repeat split; try assumption; try apply Ek.
  destruct canon as [|c' t]; [discriminate|]. unfold first_rune in Er.
  change (aget (c' :: t) 0) with (Ret c') in Er. injection Er as ->. apply Ek.
Qed.

Lemma found_entry seed ix stored k cl off :
  holds seed ix stored -> In k known_blocks ->
  find_data_offset ix k cl seed = Ret off ->
  exists cl', In (cl', off) (in_block k stored) /\ go_murmur3 cl' seed = go_murmur3 cl seed.
Proof.
  intros H Ik E. pose proof (find_offset_spec ix k cl seed (ho_sorted _ _ _ H k Ik)) as F.
  rewrite E in F. destruct F as (e & Ie & Eh & Eo).
  eapply Permutation_in in Ie; [|apply (ho_perm _ _ _ H k Ik)].
  apply in_map_iff in Ie. destruct Ie as ([cl' off'] & <- & I). cbn in Eh, Eo. subst off'.
  exists cl'. auto.
Qed.

Lemma in_block_in k stored p : In p (in_block k stored) <-> In p stored /\ starts_in k (fst p) = true.
Proof. apply filter_In. Qed.

Lemma nodup_map_inj {A} (f : A -> N) l a b : NoDup (map f l) -> In a l -> In b l -> f a = f b -> a = b.
Proof.
  induction l as [|x t IH]; simpl; intros D Ia Ib E; [contradiction|].
  inversion D as [|y z Hn D']; subst.
  destruct Ia as [->|Ia], Ib as [->|Ib]; auto.
  - exfalso. apply Hn. rewrite E. apply in_map. exact Ib.
  - exfalso. apply Hn. rewrite <- E. apply in_map. exact Ia.
Qed.

Lemma map_in_block {B} (f : str -> B) k stored :
  map (fun p => f (fst p)) (in_block k stored) = map f (filter (starts_in k) (map fst stored)).
Proof.
  induction stored as [|[cl off] t IH]; simpl; [reflexivity|].
  destruct (starts_in k cl); simpl; rewrite IH; reflexivity.
Qed.

Lemma no_collisions_prefix H bl a b : no_collisions H bl (a ++ b) -> no_collisions H bl a.
Proof.
  intros D k Ik. specialize (D k Ik). rewrite filter_app, map_app in D.
  clear - D. induction (map H (filter (starts_in k) a)) as [|x t IH]; [constructor|].
  simpl in D. inversion D as [|y z Hn D']; subst. constructor; [|apply IH; exact D'].
  intros I. apply Hn. apply in_or_app. auto.
Qed.

Lemma with_aliases_prefix stored al stored' : with_aliases stored al stored' -> exists more, stored' = stored ++ more.
Proof.
  intros W. induction W as [stored|stored canon alias off rest stored' I W IH].
  - exists []. rewrite app_nil_r. reflexivity.
  - destruct IH as (more & ->). exists ((alias, off) :: more). rewrite <- app_assoc. reflexivity.
Qed.

(** A weaker form of [with_aliases], up to hashes: what holds without assumptions *)
Inductive hash_aliases (seed : N) : list (str * N) -> list (str * str) -> list (str * N) -> Prop :=
| ha_nil stored : hash_aliases seed stored [] stored
| ha_cons stored canon alias off rest stored' cl k :
    In k known_blocks -> starts_in k canon = true ->
    In (cl, off) (in_block k stored) -> go_murmur3 cl seed = go_murmur3 canon seed ->
    hash_aliases seed (stored ++ [(alias, off)]) rest stored' ->
    hash_aliases seed stored ((canon, alias) :: rest) stored'.

Lemma add_aliases_inv seed al : forall ix stored ix',
  holds seed ix stored -> fold_res (add_alias seed) al ix = Ret ix' ->
  exists pairs stored', Forall2 parses al pairs /\ hash_aliases seed stored pairs stored' /\
    holds seed ix' stored'.
Proof.
  induction al as [|a t IH]; intros ix stored ix' H E; cbn [fold_res] in E.
  - injection E as <-. exists [], stored. split; [constructor|]. split; [constructor|exact H].
  - apply bind_ret_inv in E. destruct E as (ix1 & E1 & E).
    apply add_alias_inv in E1. destruct E1 as (canon & alias & off & k & P & Ik & Sk & Ef & Ei).
    pose proof (insert_holds _ _ _ _ _ _ H Ei) as H1.
    destruct (IH _ _ _ H1 E) as (pairs & stored' & F & W & H').
    destruct (found_entry seed ix stored k canon off H Ik Ef) as (cl & Icl & Ecl).
    exists ((canon, alias) :: pairs), stored'. split; [constructor; assumption|]. split; [|exact H'].
    apply (ha_cons seed stored canon alias off pairs stored' cl k); assumption.
Qed.

Lemma hash_aliases_prefix seed stored al stored' : hash_aliases seed stored al stored' ->
  exists more, stored' = stored ++ more.
Proof.
  intros W. induction W as [stored|stored canon alias off rest stored' cl k I1 I2 I3 I4 W IH].
  - exists []. rewrite app_nil_r. reflexivity.
  - destruct IH as (more & ->). exists ((alias, off) :: more). rewrite <- app_assoc. reflexivity.
Qed.

(** Without collisions, and if the canonical clusters are stored, aliases get the
    right offset *)
Lemma hash_aliases_exact seed stored al stored' :
  hash_aliases seed stored al stored' ->
  no_collisions (fun s => go_murmur3 s seed) known_blocks (map fst stored') ->
  (forall canon alias, In (canon, alias) al -> In canon (map fst stored)) ->
  with_aliases stored al stored'.
Proof.
  intros W. induction W as [stored|stored canon alias off rest stored' cl k Ik Sk Icl Ecl W IH];
    intros D C; [constructor|].
  apply (wa_cons stored canon alias off).
  - assert (Ic : In canon (map fst stored)) by (apply (C canon alias); left; reflexivity).
    apply in_map_iff in Ic. destruct Ic as ([canon' off'] & E & Ic). cbn in E. subst canon'.
    destruct (hash_aliases_prefix _ _ _ _ W) as (more & Em). rewrite Em, !map_app in D.
    apply no_collisions_prefix in D. apply no_collisions_prefix in D.
    assert (Ec : (cl, off) = (canon, off')).
    { apply (nodup_map_inj (fun p => go_murmur3 (fst p) seed) (in_block k stored)); auto.
      - rewrite (map_in_block (fun s => go_murmur3 s seed)). apply (D k Ik).
      - apply in_block_in. auto. }
    injection Ec as -> ->. exact Ic.
  - apply IH; [exact D|]. intros canon' alias' I. rewrite map_app. apply in_or_app. left.
    apply (C canon' alias'). right. exact I.
Qed.

(** ** The DATA array *)
Lemma pieces_concat fuel l : (length l < fuel)%nat -> concat (pieces fuel l) = l.
Proof.
  revert l; induction fuel as [|fuel IH]; intros l L; [lia|].
  cbn [pieces]. destruct l as [|a t]; [reflexivity|].
  cbn [concat]. rewrite IH.
  - apply firstn_skipn.
  - rewrite skipn_length. cbn [length] in *. lia.
Qed.

Lemma pieces_fine fuel l : (length l < fuel)%nat -> pieces_ok (pieces fuel l).
Proof.
  revert l; induction fuel as [|fuel IH]; intros l L; [lia|].
  cbn [pieces]. destruct l as [|a t] eqn:El; [exact I|]. rewrite <- El in *. clear El a t.
  assert (Lf : (length (firstn 512 l) <= 512)%nat) by (rewrite firstn_length; apply Nat.le_min_l).
  cbn [pieces_ok]. destruct fuel as [|fuel'].
  - cbn [pieces]. exact Lf.
  - assert (Ls : (length (skipn 512 l) < S fuel' \/ length l = 0)%nat) by (rewrite skipn_length; lia).
    destruct (skipn 512 l) as [|b u] eqn:Es.
    + cbn [pieces]. exact Lf.
    + assert (L512 : (512 < length l)%nat).
      { apply (f_equal (@length N)) in Es. rewrite skipn_length in Es. cbn [length] in Es. lia. }
      assert (Hl : (length (b :: u) < S fuel')%nat) by (rewrite <- Es, skipn_length; lia).
      pose proof (IH (b :: u) Hl) as HI. cbn [pieces] in HI |- *.
      split; [rewrite firstn_length; lia|exact HI].
Qed.

Lemma render_data f g seed : concat (f_data (render_font f g seed)) = gs_code g.
Proof. unfold render_font. cbn [f_data]. apply pieces_concat. lia. Qed.

(** ** Lookup *)
Lemma find_one {A} (p : A -> bool) l a : In a l -> p a = true ->
  (forall b, In b l -> p b = true -> b = a) -> find p l = Some a.
Proof.
  intros I Pa U. destruct (find p l) as [b|] eqn:E.
  - apply find_some in E. f_equal. apply U; tauto.
  - pose proof (find_none _ _ E a I). congruence.
Qed.

Section Lookup.
  Variables (fs : fontspec) (g : glyph_set) (seed : N) (stored : list (str * N)).
  Hypothesis H : holds seed (gs_index g) stored.
  Hypothesis U32 : Forall (fun p => is_u32 (fst p)) stored.
  Hypothesis NC : no_collisions (fun s => go_murmur3 s seed) known_blocks (map fst stored).

  Let font := render_font fs g seed.

  Lemma blocks_of_font b : In b (f_blocks font) <->
    exists k, In k (map fst (gs_index g)) /\ b = render_block (k, map_get (gs_index g) k).
  Proof.
    unfold font, render_font. cbn [f_blocks]. rewrite in_map_iff. unfold index_keys. split.
    - intros ([k dex] & <- & I). eapply Permutation_in in I; [|apply sort_perm].
      exists k. split; [apply in_map_iff; exists (k, dex); auto|].
      rewrite (map_get_in _ _ _ (ho_nodup _ _ _ H) I). reflexivity.
    - intros (k & I & ->). apply in_map_iff in I. destruct I as ([k' dex] & E & I). cbn in E. subst k'.
      exists (k, dex). split.
      + rewrite (map_get_in _ _ _ (ho_nodup _ _ _ H) I). reflexivity.
      + eapply Permutation_in; [symmetry; apply sort_perm|exact I].
  Qed.

  Lemma find_block c k : In k (map fst (gs_index g)) -> contains k c = true ->
    find (fun b => (b_low b <=? c) && (c <=? b_high b)) (f_blocks font) =
    Some (render_block (k, map_get (gs_index g) k)).
  Proof.
    intros Ik Ck. apply find_one.
    - apply blocks_of_font. exists k. auto.
    - destruct k as [lo hi]. exact Ck.
    - intros b Ib Cb. apply blocks_of_font in Ib. destruct Ib as (k' & Ik' & ->).
      assert (k' = k) as ->; [|reflexivity].
      apply (known_apart k' k c); try (apply (ho_known _ _ _ H); assumption); [|exact Ck].
      destruct k' as [lo hi]. exact Cb.
  Qed.

  Lemma block_hashes k : In k known_blocks ->
    NoDup (map e_hash (map_get (gs_index g) k)) /\
    StronglySorted N.lt (map e_hash (map_get (gs_index g) k)).
  Proof.
    intros Ik. assert (D : NoDup (map e_hash (map_get (gs_index g) k))).
    { eapply Permutation_NoDup.
      - symmetry. apply Permutation_map. apply (ho_perm _ _ _ H k Ik).
      - rewrite map_map. cbn [entry_of e_hash].
        rewrite (map_in_block (fun s => go_murmur3 s seed)). apply (NC k Ik). }
    split; [exact D|]. apply (StronglySorted_map e_hash N.lt).
    apply (sorted_strict e_hash); [apply (ho_sorted _ _ _ H k Ik)|exact D].
  Qed.

  Lemma stored_entry cl off : In (cl, off) stored -> exists k,
    In k known_blocks /\ starts_in k cl = true /\ In k (map fst (gs_index g)) /\
    In (entry_of seed (cl, off)) (map_get (gs_index g) k).
  Proof.
    intros I. pose proof (ho_starts _ _ _ H) as S. rewrite Forall_forall in S.
    destruct (S _ I) as (k & Ik & Sk). cbn [fst] in Sk.
    assert (Ie : In (entry_of seed (cl, off)) (map_get (gs_index g) k)).
    { eapply Permutation_in; [symmetry; apply (ho_perm _ _ _ H k Ik)|].
      apply in_map. apply in_block_in. auto. }
    exists k. repeat split; try assumption.
    destruct (in_dec (fun a b => match bool_dec (ublock_eqb a b) true with
      | left e => left (proj1 (ublock_eqb_spec a b) e)
      | right n => right (fun e => n (proj2 (ublock_eqb_spec a b) e)) end) k (map fst (gs_index g))) as [Y|Y]; [exact Y|].
    rewrite (map_get_out _ _ Y) in Ie. destruct Ie.
  Qed.

  Lemma rendered_lookup cl off : In (cl, off) stored -> glyph_for font cl = Some (off, length cl).
  Proof.
    intros I. destruct (stored_entry cl off I) as (k & Ik & Sk & Kk & Ie).
    destruct cl as [|c t]; [discriminate|].
    unfold glyph_for. rewrite (find_block c k Kk Sk).
    set (dex := map_get (gs_index g) k) in *.
    assert (Es : f_seed font = seed) by reflexivity.
    destruct k as [lo hi]. cbn [render_block b_limits].
    set (b := Block lo hi (cluster_length_list dex) (map e_hash dex) (map e_offset dex)).
    assert (Hlen : In (N.of_nat (length (c :: t))) (cluster_length_list dex)).
    { apply lengths_in. exists (entry_of seed (c :: t, off)). auto. }
    pose proof (lengths_desc dex) as Hd.
    destruct (cluster_length_list dex) as [|l0 ls] eqn:El; [destruct Hlen|].
    assert (Hl0 : N.of_nat (length (c :: t)) <= l0).
    { destruct Hlen as [->|Hlen]; [lia|]. inversion Hd as [|x y _ F].
      rewrite Forall_forall in F. specialize (F _ Hlen). lia. }
    cbn [match_limits]. rewrite Es.
    assert (U : is_u32 (c :: t)).
    { rewrite Forall_forall in U32. exact (U32 _ I). }
    rewrite (go_rust_hash (c :: t) seed l0 U Hl0). subst b; cbn [fst b_hash b_offset].
    destruct (block_hashes (lo, hi) Ik) as [D So]. fold dex in D, So.
    apply In_nth_error in Ie. destruct Ie as (n & En).
    rewrite (index_of_unique (go_murmur3 (c :: t) seed) (map e_hash dex) n).
    - f_equal. f_equal.
      + apply nth_error_nth. rewrite nth_error_map, En. reflexivity.
      + apply Nat.min_r. lia.
    - intros i j L. apply (strongly_sorted_lt_nth _ So). exact L.
    - rewrite nth_error_map, En. reflexivity.
  Qed.
End Lookup.
