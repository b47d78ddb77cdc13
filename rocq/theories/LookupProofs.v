(** * Strings, grapheme_cluster, binary search and glyph lookup *)
From Coq Require Import ZArith.
From Verif Require Import FbFacts Str M3Hash FontDefs Blit SpecPaint.

(** ** Strings *)
Lemma len_utf8_pos c : 1 <= len_utf8 c <= 4.
Proof. unfold len_utf8. destruct (c <? 128), (c <? 2048), (c <? 65536); lia. Qed.

Lemma str_len_ge s : N.of_nat (length s) <= str_len s.
Proof.
  induction s as [|c t IH]; simpl; [lia|]. pose proof (len_utf8_pos c); lia.
Qed.

Lemma str_len_app a b : str_len (a ++ b) = str_len a + str_len b.
Proof. induction a as [|c t IH]; simpl; [lia|rewrite IH; lia]. Qed.

Lemma str_len_firstn_skipn n s : str_len (firstn n s) + str_len (skipn n s) = str_len s.
Proof. rewrite <- str_len_app, firstn_skipn; reflexivity. Qed.

Lemma slice_prefix n s : slice_from s (str_len (firstn n s)) = Ret (skipn n s).
Proof.
  revert n; induction s as [|c t IH]; intros n; simpl.
  - rewrite firstn_nil, skipn_nil. reflexivity.
  - destruct n as [|n]; [reflexivity|]. simpl firstn. simpl str_len.
    pose proof (len_utf8_pos c).
    destruct (N.eqb_spec (len_utf8 c + str_len (firstn n t)) 0); [lia|].
    destruct (N.leb_spec (len_utf8 c) (len_utf8 c + str_len (firstn n t))); [|lia].
    replace (len_utf8 c + str_len (firstn n t) - len_utf8 c) with (str_len (firstn n t)) by lia.
    apply IH.
Qed.

Lemma slice_app a b : slice_from (a ++ b) (str_len a) = Ret b.
Proof.
  replace a with (firstn (length a) (a ++ b)) at 2.
  - rewrite slice_prefix, skipn_app, skipn_all, Nat.sub_diag. reflexivity.
  - rewrite firstn_app, Nat.sub_diag, firstn_all, firstn_O, app_nil_r. reflexivity.
Qed.

(** slicing succeeds exactly at the character boundaries *)
Lemma slice_inv s k t : slice_from s k = Ret t -> exists a, s = a ++ t /\ str_len a = k.
Proof.
  revert k; induction s as [|c s IH]; intros k; simpl.
  - destruct (N.eqb_spec k 0) as [->|]; [|discriminate].
    intros E; injection E as <-. exists []; auto.
  - destruct (N.eqb_spec k 0) as [->|].
    + intros E; injection E as <-. exists []; auto.
    + destruct (N.leb_spec (len_utf8 c) k); [|discriminate].
      intros E; apply IH in E. destruct E as (a & -> & Ha).
      exists (c :: a); split; [reflexivity|simpl; lia].
Qed.

Lemma second_index s :
  nth_error (char_indices s) 1 =
  match s with c :: d :: _ => Some (len_utf8 c, d) | _ => None end.
Proof.
  destruct s as [|c [|d t]]; try reflexivity.
Qed.

(** ** grapheme_cluster *)
Lemma gc_loop_spec s i h n limit :
  n <= limit ->
  gc_loop (char_indices_from i s) h n limit (i + str_len s) =
  (fold_left mix (firstn (N.to_nat (limit - n)) s) h,
   i + str_len (firstn (N.to_nat (limit - n)) s)).
Proof.
  revert i h n; induction s as [|c t IH]; intros i h n Hn; simpl.
  - rewrite firstn_nil. reflexivity.
  - destruct (N.leb_spec limit n) as [Hl|Hl].
    + replace (N.to_nat (limit - n)) with O by lia. simpl. rewrite N.add_0_r. reflexivity.
    + rewrite N.add_assoc, IH by lia.
      replace (N.to_nat (limit - n)) with (S (N.to_nat (limit - (n + 1)))) by lia.
      simpl. f_equal. lia.
Qed.

(** The hash of a whole string: Murmur3 over its characters, finished with its
    byte length *)
Definition hash_all (s : str) (seed : N) : N :=
  avalanche (N.lxor (fold_left mix s seed) (w32 (str_len s))).

Lemma grapheme_cluster_spec s seed limit :
  grapheme_cluster s seed limit =
  (hash_all (firstn (N.to_nat limit) s) seed, str_len (firstn (N.to_nat limit) s)).
Proof.
  unfold grapheme_cluster, char_indices.
  pose proof (gc_loop_spec s 0 seed 0 limit ltac:(lia)) as H.
  rewrite N.add_0_l, N.sub_0_r in H. rewrite H. rewrite N.add_0_l. reflexivity.
Qed.

(** ** Binary search *)
Definition sorted_lt (l : list N) : Prop :=
  forall i j, (i < j < length l)%nat -> nth i l 0 < nth j l 0.

Lemma index_of_some h l k : index_of h l = Some k -> nth_error l k = Some h.
Proof.
  revert k; induction l as [|v t IH]; intros k; simpl; [discriminate|].
  destruct (N.eqb_spec v h) as [->|Hn].
  - intros E; injection E as <-. reflexivity.
  - destruct (index_of h t) as [j|]; simpl; [|discriminate].
    intros E; injection E as <-. simpl. apply IH; reflexivity.
Qed.
Lemma index_of_none h l : index_of h l = None <-> ~ In h l.
Proof.
  induction l as [|v t IH]; simpl; [tauto|].
  destruct (N.eqb_spec v h) as [->|Hn].
  - split; [discriminate|intros H; exfalso; apply H; auto].
  - destruct (index_of h t) as [j|]; simpl.
    + split; [discriminate|]. intros H; exfalso.
      assert (~ (~ In h t)) by (intros H'; apply IH in H'; discriminate). tauto.
    + split; [|reflexivity]. intros _ [H|H]; [congruence|].
      apply (proj1 IH eq_refl); assumption.
Qed.
Lemma index_of_unique h l k :
  sorted_lt l -> nth_error l k = Some h -> index_of h l = Some k.
Proof.
  intros Hs E. destruct (index_of h l) as [j|] eqn:Ej.
  - apply index_of_some in Ej. f_equal.
    assert (Hj : (j < length l)%nat) by (apply nth_error_Some; congruence).
    assert (Hk : (k < length l)%nat) by (apply nth_error_Some; congruence).
    apply (nth_error_nth l j 0) in Ej. apply (nth_error_nth l k 0) in E.
    destruct (Nat.lt_trichotomy j k) as [Hlt|[->|Hgt]]; [|reflexivity|].
    + specialize (Hs j k ltac:(lia)); lia.
    + specialize (Hs k j ltac:(lia)); lia.
  - exfalso. apply index_of_none in Ej. apply Ej. apply nth_error_In in E; exact E.
Qed.

Lemma bs_loop_inv fuel s key base size :
  sorted_lt s ->
  size <= N.of_nat fuel -> 1 <= size -> base + size <= N.of_nat (length s) ->
  (forall j, base + size <= N.of_nat j -> (j < length s)%nat -> key < nth j s 0) ->
  (base = 0 \/ nth (N.to_nat base) s 0 <= key) ->
  let b := bs_loop fuel s key base size in
  b < N.of_nat (length s) /\
  (forall j, b < N.of_nat j -> (j < length s)%nat -> key < nth j s 0) /\
  (b = 0 \/ nth (N.to_nat b) s 0 <= key).
Proof.
  intros Hs. revert base size; induction fuel as [|fuel IH]; intros base size Hf H1 Hb Hhi Hlo; simpl.
  - lia.
  - destruct (N.leb_spec size 1) as [Hle|Hgt].
    + split; [lia|split; [|assumption]]. intros j Hj Hl; apply Hhi; lia.
    + rewrite N.div2_div.
      assert (Hmid : (N.to_nat (base + size / 2) < length s)%nat) by lia.
      rewrite (nth_error_nth' s _ 0) by assumption.
      destruct (N.ltb_spec key (nth (N.to_nat (base + size / 2)) s 0)) as [Hk|Hk].
      * destruct (N.eq_dec size 2) as [->|Hn2].
        -- (* size 2, half 1 *)
           change (2 / 2) with 1 in *. change (2 - 1) with 1.
           apply IH; try lia; try assumption.
           intros j Hj Hl. destruct (N.eq_dec (N.of_nat j) (base + 1)) as [Ej|Ej].
           ++ replace j with (N.to_nat (base + 1)) by lia. assumption.
           ++ apply Hhi; lia.
        -- apply IH; try lia; try assumption.
           intros j Hj Hl.
           destruct (N.le_gt_cases (base + size) (N.of_nat j)); [apply Hhi; lia|].
           destruct (Nat.eq_dec j (N.to_nat (base + size / 2))) as [->|Hne]; [assumption|].
           assert (nth (N.to_nat (base + size / 2)) s 0 < nth j s 0) by (apply Hs; lia). lia.
      * apply IH; try lia. intros j Hj Hl; apply Hhi; lia.
Qed.

Lemma binary_search_spec s key :
  sorted_lt s -> binary_search s key = option_map N.of_nat (index_of key s).
Proof.
  intros Hs. destruct s as [|v t]; [reflexivity|].
  unfold binary_search. set (s := v :: t) in *.
  assert (Hl : (0 < length s)%nat) by (simpl; lia).
  destruct (bs_loop_inv (length s) s key 0 (N.of_nat (length s)) Hs) as (Hb & Hhi & Hlo); try lia.
  set (b := bs_loop _ _ _ _ _) in *. clearbody b.
  rewrite (nth_error_nth' s _ 0) by lia.
  destruct (N.eqb_spec (nth (N.to_nat b) s 0) key) as [E|E].
  - rewrite (index_of_unique key s (N.to_nat b)).
    + simpl. f_equal. lia.
    + assumption.
    + rewrite (nth_error_nth' s _ 0) by lia. congruence.
  - destruct (index_of key s) as [j|] eqn:Ej; [|reflexivity]. exfalso.
    apply index_of_some in Ej.
    assert (Hj : (j < length s)%nat) by (apply nth_error_Some; congruence).
    apply (nth_error_nth s j 0) in Ej.
    destruct (Nat.lt_trichotomy j (N.to_nat b)) as [Hlt|[->|Hgt]]; [|congruence|].
    + assert (nth j s 0 < nth (N.to_nat b) s 0) by (apply Hs; lia). lia.
    + specialize (Hhi j ltac:(lia) Hj). lia.
Qed.

(** ** Lookup *)
Definition lookup_result (s : str) (r : option (N * nat)) : option (N * N) :=
  match r with Some (off, n) => Some (off, str_len (firstn n s)) | None => None end.

Lemma firstn_min {A} n (l : list A) : firstn (Nat.min n (length l)) l = firstn n l.
Proof.
  destruct (Nat.le_ge_cases n (length l)).
  - rewrite Nat.min_l by assumption; reflexivity.
  - rewrite Nat.min_r by assumption. rewrite firstn_all, firstn_all2 by assumption; reflexivity.
Qed.

Lemma try_limits_spec f b s limits :
  sorted_lt (b_hash b) -> length (b_hash b) = length (b_offset b) ->
  try_limits (f_seed f) b s limits = Ret (lookup_result s (match_limits f b s limits)).
Proof.
  intros Hs Hl. induction limits as [|l rest IH]; [reflexivity|].
  cbn [try_limits match_limits]. unfold find_in_block, murmur3.
  rewrite grapheme_cluster_spec. cbn [fst].
  rewrite binary_search_spec by assumption.
  destruct (index_of _ (b_hash b)) as [k|] eqn:Ek; cbn [option_map bind].
  - apply index_of_some in Ek.
    assert (Hk : (k < length (b_hash b))%nat) by (apply nth_error_Some; congruence).
    rewrite (aget_ok _ _ 0) by lia. cbn [bind lookup_result].
    rewrite Nnat.Nat2N.id, firstn_min. reflexivity.
  - exact IH.
Qed.

Lemma lookup_spec f s :
  font_ok f -> get_blit_pattern_offset f s = Ret (lookup_result s (glyph_for f s)).
Proof.
  intros Hf. destruct s as [|ch t]; [reflexivity|].
  unfold get_blit_pattern_offset, glyph_for.
  destruct (find _ (f_blocks f)) as [b|] eqn:Eb; [|reflexivity].
  apply find_some in Eb as [Hin _].
  apply try_limits_spec.
  - pose proof (fo_sorted f Hf) as H. rewrite Forall_forall in H. exact (H b Hin).
  - pose proof (fo_blocks f Hf) as H. rewrite Forall_forall in H. apply (H b Hin).
Qed.

Lemma match_limits_ok f b s limits off n :
  length (b_hash b) = length (b_offset b) -> s <> [] ->
  Forall (fun l => 1 <= l) limits ->
  match_limits f b s limits = Some (off, n) ->
  In off (b_offset b) /\ (1 <= n <= length s)%nat.
Proof.
  intros Hl Hne Hlim. induction Hlim as [|l rest Hl1 Hrest IH]; [discriminate|].
  cbn [match_limits].
  destruct (index_of _ (b_hash b)) as [k|] eqn:Ek; [|exact IH].
  intros E; injection E as <- <-. apply index_of_some in Ek.
  assert (Hk : (k < length (b_hash b))%nat) by (apply nth_error_Some; congruence).
  split; [apply nth_In; lia|].
  destruct s; [congruence|]. simpl length. lia.
Qed.

Lemma glyph_for_ok f s off n :
  font_ok f -> glyph_for f s = Some (off, n) -> glyph_ok f off /\ (1 <= n <= length s)%nat.
Proof.
  intros Hf. destruct s as [|ch t]; [discriminate|].
  unfold glyph_for. destruct (find _ (f_blocks f)) as [b|] eqn:Eb; [|discriminate].
  apply find_some in Eb as [Hin _].
  pose proof (fo_blocks f Hf) as H. rewrite Forall_forall in H. destruct (H b Hin) as [H1 H2 H3].
  intros E. destruct (match_limits_ok f b (ch :: t) (b_limits b) off n) as [Hi Hn];
    try assumption; try discriminate.
  split; [|exact Hn]. rewrite Forall_forall in H3; apply H3; exact Hi.
Qed.
