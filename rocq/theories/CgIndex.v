(** * The generator's index *)
From Coq Require Import ZArith Permutation Sorted.
From Verif Require Import PrimFacts Str M3Hash FontDefs SpecPaint SpecCodegen Codegen LookupProofs SortProofs.

(** ** Hash *)
Lemma go_mix_eq h c : c < 2 ^ 32 -> go_mix h c = mix h c.
Proof. intros H. unfold go_mix, mix, scramble. rewrite w32_small by exact H. reflexivity. Qed.

Definition is_u32 (s : str) : Prop := Forall (fun c => c < 2 ^ 32) s.

Lemma go_murmur3_hash s seed : is_u32 s -> go_murmur3 s seed = hash_all s seed.
Proof.
  intros H. unfold go_murmur3, hash_all, avalanche.
  assert (fold_left go_mix s seed = fold_left mix s seed) as ->; [|reflexivity].
  revert seed. induction H as [|c t Hc Ht IH]; intros seed; simpl; [reflexivity|].
  rewrite go_mix_eq by exact Hc. apply IH.
Qed.

Lemma go_rust_hash s seed limit : is_u32 s -> N.of_nat (length s) <= limit ->
  grapheme_cluster s seed limit = (go_murmur3 s seed, str_len s).
Proof.
  intros H L. rewrite grapheme_cluster_spec, go_murmur3_hash by exact H.
  rewrite firstn_all2 by lia. reflexivity.
Qed.

(** ** Blocks *)
Definition contains (k : ublock) (c : N) : bool := (fst k <=? c) && (c <=? snd k).

Lemma ublock_eqb_spec a b : ublock_eqb a b = true <-> a = b.
Proof.
  destruct a as [a1 a2], b as [b1 b2]. unfold ublock_eqb. cbn [fst snd].
  rewrite andb_true_iff, !N.eqb_eq. split; [intros [-> ->]; reflexivity|intros E; injection E; auto].
Qed.

Definition apart (a b : ublock) : bool := ublock_eqb a b || (snd a <? fst b) || (snd b <? fst a).

Lemma known_apart_ok : forallb (fun a => forallb (apart a) known_blocks) known_blocks = true.
Proof. vm_compute. reflexivity. Qed.

Lemma known_apart a b c : In a known_blocks -> In b known_blocks ->
  contains a c = true -> contains b c = true -> a = b.
Proof.
  intros Ia Ib Ha Hb. pose proof known_apart_ok as H.
  rewrite forallb_forall in H. specialize (H a Ia). rewrite forallb_forall in H. specialize (H b Ib).
  unfold apart in H. unfold contains in *.
  rewrite !orb_true_iff, ublock_eqb_spec in H. destruct H as [[H|H]|H]; [exact H| |]; lia.
Qed.

Lemma known_low a b : In a known_blocks -> In b known_blocks -> fst a = fst b -> a = b.
Proof.
  intros Ia Ib E. apply (known_apart a b (fst a)); try assumption; unfold contains.
  - assert (H : forallb (fun k => fst k <=? snd k) known_blocks = true) by (vm_compute; reflexivity).
    rewrite forallb_forall in H. specialize (H a Ia). lia.
  - assert (H : forallb (fun k => fst k <=? snd k) known_blocks = true) by (vm_compute; reflexivity).
    rewrite forallb_forall in H. specialize (H b Ib). lia.
Qed.

Lemma ublock_of_ret c k : ublock_of c = Ret k -> In k known_blocks /\ contains k c = true.
Proof.
  unfold ublock_of. destruct (find _ _) as [b|] eqn:E; [|discriminate].
  intros H; injection H as <-. apply find_some in E. exact E.
Qed.

Lemma ublock_of_known c k : In k known_blocks -> contains k c = true -> ublock_of c = Ret k.
Proof.
  intros I C. unfold ublock_of. destruct (find _ _) as [b|] eqn:E.
  - apply find_some in E. f_equal. apply (known_apart b k c); tauto.
  - apply (find_none _ _ E) in I. unfold contains in C. congruence.
Qed.

(** ** Maps *)
Lemma map_get_set ix k v k' :
  map_get (map_set ix k v) k' = if ublock_eqb k k' then v else map_get ix k'.
Proof.
  induction ix as [|[k0 b] t IH]; simpl.
  - destruct (ublock_eqb k k'); reflexivity.
  - destruct (ublock_eqb k0 k) eqn:E; simpl.
    + apply ublock_eqb_spec in E. subst k0. destruct (ublock_eqb k k'); reflexivity.
    + rewrite IH. destruct (ublock_eqb k0 k') eqn:E'; [|reflexivity].
      destruct (ublock_eqb k k') eqn:E''; [|reflexivity].
      apply ublock_eqb_spec in E'. apply ublock_eqb_spec in E''. subst.
      assert (ublock_eqb k' k' = true) by (apply ublock_eqb_spec; reflexivity). congruence.
Qed.

Lemma map_set_keys ix k v k' : In k' (map fst (map_set ix k v)) <-> k' = k \/ In k' (map fst ix).
Proof.
  induction ix as [|[k0 b] t IH]; simpl.
  - split; [intros [H|[]]; auto|intros [H|[]]; auto].
  - destruct (ublock_eqb k0 k) eqn:E; simpl.
    + apply ublock_eqb_spec in E. subst k0. split; [tauto|]. intros [H|H]; auto.
    + rewrite IH. tauto.
Qed.

Lemma map_set_nodup ix k v : NoDup (map fst ix) -> NoDup (map fst (map_set ix k v)).
Proof.
  induction ix as [|[k0 b] t IH]; simpl; intros H.
  - repeat constructor. intros [].
  - inversion H as [|x y Hn Hd]; subst. destruct (ublock_eqb k0 k) eqn:E; simpl; constructor; auto.
    rewrite map_set_keys. intros [E'|E']; [|contradiction]. subst k0.
    assert (ublock_eqb k k = true) by (apply ublock_eqb_spec; reflexivity). congruence.
Qed.

Lemma map_get_in ix k b : NoDup (map fst ix) -> In (k, b) ix -> map_get ix k = b.
Proof.
  induction ix as [|[k0 b0] t IH]; simpl; intros H I; [contradiction|].
  inversion H as [|x y Hn Hd]; subst. destruct I as [E|I].
  - injection E as <- <-. assert (ublock_eqb k0 k0 = true) as -> by (apply ublock_eqb_spec; reflexivity).
    reflexivity.
  - destruct (ublock_eqb k0 k) eqn:E; [|apply IH; assumption].
    apply ublock_eqb_spec in E. subst k0. exfalso. apply Hn. apply in_map_iff. exists (k, b). auto.
Qed.

Lemma map_get_out ix k : ~ In k (map fst ix) -> map_get ix k = [].
Proof.
  induction ix as [|[k0 b0] t IH]; simpl; intros H; [reflexivity|].
  destruct (ublock_eqb k0 k) eqn:E; [|apply IH; tauto].
  apply ublock_eqb_spec in E. subst. exfalso. apply H. auto.
Qed.

(** ** What the index holds *)
Definition entry_of (seed : N) (p : str * N) : entry := Entry (go_murmur3 (fst p) seed) (fst p) (snd p).

Record holds (seed : N) (ix : list (ublock * block_index)) (stored : list (str * N)) : Prop := {
  ho_nodup : NoDup (map fst ix);
  ho_known : forall k, In k (map fst ix) -> In k known_blocks;
  ho_starts : Forall (fun p => exists k, In k known_blocks /\ starts_in k (fst p) = true) stored;
  ho_perm : forall k, In k known_blocks ->
    Permutation (map_get ix k) (map (entry_of seed) (in_block k stored));
  ho_sorted : forall k, In k known_blocks -> StronglySorted (le_key e_hash) (map_get ix k)
}.

Lemma holds_nil seed : holds seed [] [].
Proof. split; try constructor; simpl; tauto. Qed.

Lemma gs_insert_inv ix cl seed off ix' : gs_insert ix cl seed off = Ret ix' ->
  exists k, In k known_blocks /\ starts_in k cl = true /\
    ix' = map_set ix k (bi_insert (map_get ix k) cl seed off).
Proof.
  unfold gs_insert, first_rune. destruct cl as [|c t]; [discriminate|].
  change (aget (c :: t) 0) with (Ret c). cbn [bind].
  intros H. apply bind_ret_inv in H. destruct H as (k & Hk & E). injection E as <-.
  apply ublock_of_ret in Hk. exists k. split; [apply Hk|]. split; [apply Hk|reflexivity].
Qed.

Lemma gs_insert_ok ix cl seed off k : In k known_blocks -> starts_in k cl = true ->
  gs_insert ix cl seed off = Ret (map_set ix k (bi_insert (map_get ix k) cl seed off)).
Proof.
  intros I S. unfold gs_insert, first_rune. destruct cl as [|c t]; [discriminate|].
  change (aget (c :: t) 0) with (Ret c). cbn [bind].
  rewrite (ublock_of_known c k I S). reflexivity.
Qed.

Lemma in_block_app k a b : in_block k (a ++ b) = in_block k a ++ in_block k b.
Proof. apply filter_app. Qed.

Lemma starts_unique k k' cl : In k known_blocks -> In k' known_blocks ->
  starts_in k cl = true -> starts_in k' cl = true -> k = k'.
Proof. destruct cl as [|c t]; [discriminate|]. apply (known_apart k k' c). Qed.

Lemma insert_holds seed ix stored cl off ix' :
  holds seed ix stored -> gs_insert ix cl seed off = Ret ix' -> holds seed ix' (stored ++ [(cl, off)]).
Proof.
  intros [Hd Hk Hs Hp Hso] E. apply gs_insert_inv in E. destruct E as (k & Ik & Sk & ->).
  split.
  - apply map_set_nodup. exact Hd.
  - intros k' I. apply map_set_keys in I. destruct I as [->|I]; auto.
  - apply Forall_app; split; [exact Hs|]. constructor; [|constructor]. exists k. auto.
  - intros k' I'. rewrite map_get_set, in_block_app, map_app.
    destruct (ublock_eqb k k') eqn:E.
    + apply ublock_eqb_spec in E. subst k'. unfold bi_insert. rewrite sort_perm.
      cbn [in_block filter fst]. rewrite Sk. cbn [map].
      apply Permutation_app; [apply Hp; exact Ik|reflexivity].
    + cbn [in_block filter fst]. destruct (starts_in k' cl) eqn:S'.
      * exfalso. assert (k = k') by (apply (starts_unique k k' cl); assumption).
        apply ublock_eqb_spec in H. congruence.
      * cbn [map]. rewrite app_nil_r. apply Hp. exact I'.
  - intros k' I'. rewrite map_get_set. destruct (ublock_eqb k k'); [apply sort_sorted|apply Hso; exact I'].
Qed.

(** ** Cluster lengths *)
Lemma lengths_desc b : StronglySorted (fun x y => y < x) (cluster_length_list b).
Proof.
  unfold cluster_length_list. apply (sorted_rev N.lt).
  change N.lt with (lt_key (fun n : N => n)).
  apply sorted_strict; [apply sort_sorted|].
  rewrite map_id. eapply Permutation_NoDup; [symmetry; apply sort_perm|]. apply NoDup_nodup.
Qed.

Lemma lengths_in b n : In n (cluster_length_list b) <->
  exists e, In e b /\ N.of_nat (length (e_cluster e)) = n.
Proof.
  unfold cluster_length_list. rewrite <- in_rev.
  split.
  - intros H. eapply Permutation_in in H; [|apply sort_perm].
    apply nodup_In in H. apply in_map_iff in H. destruct H as (e & E & I). exists e. auto.
  - intros (e & I & E). eapply Permutation_in; [symmetry; apply sort_perm|].
    apply nodup_In. apply in_map_iff. exists e. auto.
Qed.

(** ** sort.Search *)
Lemma search_loop_spec f fuel i j n :
  (forall a b, a <= b -> b < n -> f a = true -> f b = true) ->
  (N.to_nat (j - i) <= fuel)%nat -> i <= j <= n ->
  (forall a, a < i -> f a = false) -> (j = n \/ f j = true) ->
  let r := search_loop fuel f i j in
  r <= n /\ (forall a, a < r -> f a = false) /\ (r = n \/ f r = true).
Proof.
  intros Mono. revert i j. induction fuel as [|fuel IH]; intros i j Hf Hij Hlo Hhi; cbn [search_loop].
  - assert (i = j) by lia. subst j. cbv zeta. split; [lia|]. split; assumption.
  - destruct (N.ltb_spec i j) as [L|L].
    + assert (Hh : i <= (i + j) / 2 < j) by lia.
      destruct (f ((i + j) / 2)) eqn:E.
      * apply IH; try lia; try assumption. right. exact E.
      * apply IH; try lia; try assumption. intros a Ha.
        destruct (f a) eqn:Ea; [|reflexivity]. exfalso.
        rewrite (Mono a ((i + j) / 2)) in E; [discriminate|lia|lia|exact Ea].
    + assert (i = j) by lia. subst j. cbv zeta. split; [lia|]. split; assumption.
Qed.

(** FindDataOffset returns the offset of an entry with the cluster's hash, if there is one *)
Lemma find_offset_spec ix k cl seed : StronglySorted (le_key e_hash) (map_get ix k) ->
  match find_data_offset ix k cl seed with
  | Ret off => exists e, In e (map_get ix k) /\ e_hash e = go_murmur3 cl seed /\ e_offset e = off
  | Panic => forall e, In e (map_get ix k) -> e_hash e <> go_murmur3 cl seed
  end.
Proof.
  intros Hs. unfold find_data_offset. set (dex := map_get ix k) in *. clearbody dex.
  set (h := go_murmur3 cl seed).
  set (f := fun i => match nth_error dex (N.to_nat i) with Some e => h <=? e_hash e | None => false end).
  set (n := N.of_nat (length dex)).
  assert (Mono : forall a b, a <= b -> b < n -> f a = true -> f b = true).
  { intros a b L Hb. unfold f, n in *.
    destruct (nth_error dex (N.to_nat a)) as [ea|] eqn:Ea; [|discriminate].
    destruct (nth_error dex (N.to_nat b)) as [eb|] eqn:Eb.
    2:{ apply nth_error_None in Eb. lia. }
    intros Ha. destruct (N.eq_dec a b) as [->|Hne]; [congruence|].
    assert (e_hash ea <= e_hash eb); [|lia].
    clear - Hs Ea Eb L Hne. remember (N.to_nat a) as i. remember (N.to_nat b) as j.
    assert (Hij : (i < j)%nat) by lia. clear - Hs Ea Eb Hij.
    revert i j Ea Eb Hij. induction Hs as [|e t Ht IH He]; intros i j Ea Eb Hij.
    - destruct i; discriminate.
    - destruct j as [|j]; [lia|]. destruct i as [|i]; simpl in *.
      + injection Ea as ->. rewrite Forall_forall in He. apply He. eapply nth_error_In; eassumption.
      + eapply IH; [eassumption|eassumption|lia]. }
  destruct (search_loop_spec f (N.to_nat n) 0 n n Mono) as (L & Lo & Hi); try lia.
  unfold sort_search. set (r := search_loop (N.to_nat n) f 0 n) in *.
  assert (None' : (forall e, nth_error dex (N.to_nat r) = Some e -> e_hash e <> h) ->
    forall e, In e dex -> e_hash e <> h).
  { intros Hr e I E. apply In_nth_error in I. destruct I as (j & Ej).
    assert (Lj : (j < length dex)%nat) by (apply nth_error_Some; congruence).
    assert (Fj : f (N.of_nat j) = true) by (unfold f; rewrite Nnat.Nat2N.id, Ej; lia).
    destruct (N.lt_ge_cases (N.of_nat j) r) as [H|H]; [rewrite (Lo _ H) in Fj; discriminate|].
    destruct Hi as [Hi|Hi]; [unfold n in *; lia|].
    unfold f in Hi. destruct (nth_error dex (N.to_nat r)) as [er|] eqn:Er; [|discriminate].
    specialize (Hr er eq_refl).
    destruct (N.eq_dec (N.of_nat j) r) as [E'|E'].
    - rewrite <- E', Nnat.Nat2N.id in Er. congruence.
    - assert (e_hash er <= e_hash e); [|lia].
      assert (Hij : (N.to_nat r < j)%nat) by lia. clear - Hs Er Ej Hij.
      remember (N.to_nat r) as i. clear Heqi. revert i j Er Ej Hij.
      induction Hs as [|e0 t Ht IH He]; intros i j Ea Eb Hij.
      + destruct i; discriminate.
      + destruct j as [|j]; [lia|]. destruct i as [|i]; simpl in *.
        * injection Ea as ->. rewrite Forall_forall in He. apply He. eapply nth_error_In; eassumption.
        * eapply IH; [eassumption|eassumption|lia]. }
  fold n. fold f. destruct (nth_error dex (N.to_nat r)) as [e|] eqn:Er.
  - destruct (N.eqb_spec (e_hash e) h) as [E|E].
    + exists e. split; [eapply nth_error_In; exact Er|]. auto.
    + apply None'. intros e' Ee. congruence.
  - apply None'. intros e' Ee. congruence.
Qed.
