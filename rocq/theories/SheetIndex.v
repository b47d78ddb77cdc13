(** * A fast check that font tables are the generator's index *)
From Coq Require Import ZArith Permutation Sorted.
From Verif Require Import PrimFacts Str M3Hash FontDefs SpecPaint SpecCodegen Codegen FontCheck.
From Verif Require Import LookupProofs SortProofs CgIndex CgFont CgGenerate CgMore.

(** ** Merge sort; only that it permutes matters here *)
Fixpoint merge (fuel : nat) (a b : list entry) : list entry :=
  match fuel with
  | O => a ++ b
  | S k =>
      match a, b with
      | [], _ => b
      | _, [] => a
      | x :: a', y :: b' =>
          if e_hash x <=? e_hash y then x :: merge k a' b else y :: merge k a b'
      end
  end.
Lemma merge_perm fuel : forall a b, Permutation (merge fuel a b) (a ++ b).
Proof.
  induction fuel as [|k IH]; intros a b; [reflexivity|]. cbn [merge].
  destruct a as [|x a]; [reflexivity|]. destruct b as [|y b]; [rewrite app_nil_r; reflexivity|].
  destruct (_ <=? _).
  - cbn [app]. apply perm_skip. apply IH.
  - rewrite IH. cbn [app]. apply (Permutation_middle (x :: a) b y).
Qed.

Fixpoint deal {A} (l : list A) : list A * list A :=
  match l with
  | [] => ([], [])
  | a :: t => let '(x, y) := deal t in (a :: y, x)
  end.
Lemma deal_perm {A} (l : list A) : Permutation (fst (deal l) ++ snd (deal l)) l.
Proof.
  induction l as [|a t IH]; [reflexivity|]. cbn [deal]. destruct (deal t) as [x y]. cbn [fst snd] in *.
  cbn [app]. apply perm_skip. rewrite Permutation_app_comm. exact IH.
Qed.

Fixpoint msort (fuel : nat) (l : list entry) : list entry :=
  match fuel with
  | O => l
  | S k =>
      match l with
      | [] => []
      | [e] => [e]
      | _ => let '(x, y) := deal l in merge (length l) (msort k x) (msort k y)
      end
  end.
Lemma msort_perm fuel : forall l, Permutation (msort fuel l) l.
Proof.
  induction fuel as [|k IH]; intros l; [reflexivity|]. cbn [msort].
  destruct l as [|a [|b t]]; try reflexivity.
  pose proof (deal_perm (a :: b :: t)) as P. destruct (deal (a :: b :: t)) as [x y]. cbn [fst snd] in P.
  rewrite merge_perm, !IH. exact P.
Qed.

(** ** Checks *)
Fixpoint eqlist (a b : list N) : bool :=
  match a, b with
  | [], [] => true
  | x :: a', y :: b' => (x =? y) && eqlist a' b'
  | _, _ => false
  end.
Lemma eqlist_eq a : forall b, eqlist a b = true -> a = b.
Proof.
  induction a as [|x a IH]; intros [|y b] H; simpl in H; try discriminate; [reflexivity|].
  apply andb_prop in H. destruct H as [H1 H2]. apply N.eqb_eq in H1. rewrite H1, (IH b H2). reflexivity.
Qed.

Definition b_key (b : block) : ublock := (b_low b, b_high b).

Fixpoint ascending (l : list N) : bool :=
  match l with
  | a :: (b :: _) as t => (a <? b) && ascending t
  | _ => true
  end.
Lemma ascending_sorted l : ascending l = true -> StronglySorted N.lt l.
Proof.
  intros H. apply Sorted_StronglySorted; [intros a b c; lia|].
  induction l as [|a t IH]; [constructor|]. destruct t as [|b t].
  - repeat constructor.
  - change ((a <? b) && ascending (b :: t) = true) in H. apply andb_prop in H. destruct H as [H1 H2].
    constructor; [apply IH; exact H2|constructor; lia].
Qed.


(** The lengths of clusters, without making the list *)
Definition entry_length (e : entry) : N := N.of_nat (length (e_cluster e)).
Definition lengths_okb (l : list entry) (lims : list N) : bool :=
  ascending (rev lims)
  && forallb (fun e => existsb (N.eqb (entry_length e)) lims) l
  && forallb (fun n => existsb (fun e => entry_length e =? n) l) lims.

Lemma desc_unique (l1 : list N) : forall l2,
  StronglySorted (fun x y => y < x) l1 -> StronglySorted (fun x y => y < x) l2 ->
  (forall n, In n l1 <-> In n l2) -> l1 = l2.
Proof.
  induction l1 as [|a t IH]; intros [|b u] H1 H2 E; [reflexivity| | |].
  - destruct (proj2 (E b) (or_introl eq_refl)).
  - destruct (proj1 (E a) (or_introl eq_refl)).
  - inversion H1 as [|x y Ht Ha]; subst. inversion H2 as [|x y Hu Hb]; subst.
    rewrite Forall_forall in Ha, Hb.
    assert (a = b) as ->.
    { destruct (proj1 (E a) (or_introl eq_refl)) as [->|I]; [reflexivity|].
      destruct (proj2 (E b) (or_introl eq_refl)) as [->|J]; [reflexivity|].
      specialize (Ha b J). specialize (Hb a I). lia. }
    f_equal. apply IH; [exact Ht|exact Hu|]. intros n. split; intros I.
    + destruct (proj1 (E n) (or_intror I)) as [<-|J]; [specialize (Ha b I); lia|exact J].
    + destruct (proj2 (E n) (or_intror I)) as [<-|J]; [specialize (Hb b I); lia|exact J].
Qed.

Lemma lengths_ok l lims : lengths_okb l lims = true -> cluster_length_list l = lims.
Proof.
  unfold lengths_okb. rewrite !andb_true_iff, !forallb_forall. intros [[H1 H2] H3].
  apply desc_unique.
  - apply lengths_desc.
  - apply ascending_sorted in H1. apply (sorted_rev N.lt) in H1. rewrite rev_involutive in H1. exact H1.
  - intros n. rewrite lengths_in. split.
    + intros (e & I & <-). specialize (H2 e I). apply existsb_exists in H2. destruct H2 as (k & J & E).
      apply N.eqb_eq in E. unfold entry_length in E. rewrite E. exact J.
    + intros I. specialize (H3 n I). apply existsb_exists in H3. destruct H3 as (e & J & E).
      exists e. split; [exact J|]. apply N.eqb_eq in E. exact E.
Qed.

Definition block_listb (es : list entry) (b : block) : bool :=
  let l := msort 20 (filter (fun e => starts_in (b_key b) (e_cluster e)) es) in
  eqlist (map e_hash l) (b_hash b) && eqlist (map e_offset l) (b_offset b)
  && lengths_okb l (b_limits b)
  && match l with [] => false | _ => true end.

Definition blocks_listb (seed : N) (stored : list (str * N)) (blocks : list block) : bool :=
  let es := map (entry_of seed) stored in
  ascending (map b_low blocks)
  && forallb (fun b => existsb (ublock_eqb (b_key b)) known_blocks && ascending (b_hash b)) blocks
  && forallb (fun p => existsb (fun b => starts_in (b_key b) (fst p)) blocks) stored
  && forallb (block_listb es) blocks.

(** Aliases with the offset of their canonical cluster *)
Definition find_offset (stored : list (str * N)) (canon : str) : option N :=
  option_map snd (find (fun p => eqlist (fst p) canon) stored).
Fixpoint resolve (stored : list (str * N)) (pairs : list (str * str)) : option (list (str * N)) :=
  match pairs with
  | [] => Some stored
  | (canon, alias) :: rest =>
      match find_offset stored canon with
      | Some off => resolve (stored ++ [(alias, off)]) rest
      | None => None
      end
  end.

Lemma eqlist_refl a : eqlist a a = true.
Proof. induction a as [|x a IH]; simpl; [reflexivity|]. rewrite N.eqb_refl. exact IH. Qed.

Lemma find_offset_in stored canon off : find_offset stored canon = Some off -> In (canon, off) stored.
Proof.
  unfold find_offset. destruct (find (fun p => eqlist (fst p) canon) stored) as [[cl o]|] eqn:E; [|discriminate].
  intros H. injection H as <-. apply find_some in E. destruct E as [I E]. apply eqlist_eq in E.
  cbn [fst] in E. subst cl. exact I.
Qed.
Lemma find_offset_unique stored canon off : NoDup (map fst stored) -> In (canon, off) stored ->
  find_offset stored canon = Some off.
Proof.
  intros D I. unfold find_offset. induction stored as [|[cl o] t IH]; [destruct I|].
  cbn [find fst]. cbn [map fst] in D. inversion D as [|x y Hn D']; subst.
  destruct I as [E|I].
  - injection E as -> ->. rewrite eqlist_refl. reflexivity.
  - destruct (eqlist cl canon) eqn:E; [|apply IH; assumption].
    apply eqlist_eq in E. subst cl. exfalso. apply Hn. apply in_map_iff. exists (canon, off). auto.
Qed.

Lemma resolve_fst pairs : forall stored stored', resolve stored pairs = Some stored' ->
  map fst stored' = map fst stored ++ map snd pairs.
Proof.
  induction pairs as [|[canon alias] rest IH]; intros stored stored' E; cbn [resolve] in E.
  - injection E as <-. cbn [map]. rewrite app_nil_r. reflexivity.
  - destruct (find_offset stored canon) as [off|]; [|discriminate]. apply IH in E.
    rewrite E, map_app, <- app_assoc. reflexivity.
Qed.
Lemma nodup_app_l {A} (a b : list A) : NoDup (a ++ b) -> NoDup a.
Proof.
  induction a as [|x a IH]; cbn [app]; intros D; [constructor|]. inversion D as [|y z Hn D']; subst.
  constructor; [|apply IH; exact D']. intros I. apply Hn. apply in_or_app. left. exact I.
Qed.
Lemma resolve_unique stored pairs stored1 : with_aliases stored pairs stored1 ->
  NoDup (map fst stored1) -> resolve stored pairs = Some stored1.
Proof.
  intros W. induction W as [stored|stored canon alias off rest stored1 I W IH]; intros D; cbn [resolve]; [reflexivity|].
  destruct (with_aliases_prefix _ _ _ W) as (more & E).
  assert (D' : NoDup (map fst stored)).
  { rewrite E, !map_app in D. apply nodup_app_l in D. apply nodup_app_l in D. exact D. }
  rewrite (find_offset_unique stored canon off D' I). apply IH. exact D.
Qed.
Lemma resolve_canon pairs : forall stored stored', resolve stored pairs = Some stored' ->
  forall canon alias, In (canon, alias) pairs -> In canon (map fst stored').
Proof.
  induction pairs as [|[canon0 alias0] rest IH]; intros stored stored' E canon alias I; [destruct I|].
  cbn [resolve] in E. destruct (find_offset stored canon0) as [off|] eqn:Ef; [|discriminate].
  destruct I as [I|I].
  - injection I as -> ->. apply resolve_fst in E. rewrite E, map_app. apply in_or_app. left. apply in_or_app. left.
    apply find_offset_in in Ef. apply in_map_iff. exists (canon, off). auto.
  - apply (IH _ _ E canon alias I).
Qed.

(** ** The blocks of an index *)
Definition full (ix : list (ublock * block_index)) : Prop := Forall (fun kb => snd kb <> []) ix.

Lemma map_set_full ix k v : v <> [] -> full ix -> full (map_set ix k v).
Proof.
  intros Hv F. induction F as [|[k0 b] t Hb F IH]; cbn [map_set]; [repeat constructor; exact Hv|].
  destruct (ublock_eqb k0 k); constructor; try assumption.
Qed.
Lemma gs_insert_full ix cl seed off ix' : gs_insert ix cl seed off = Ret ix' -> full ix -> full ix'.
Proof.
  intros E F. apply gs_insert_inv in E. destruct E as (k & _ & _ & ->). apply map_set_full; [|exact F].
  unfold bi_insert. intros E.
  pose proof (sort_perm e_hash (map_get ix k ++ [Entry (go_murmur3 cl seed) cl off])) as P. rewrite E in P.
  apply Permutation_nil in P. destruct (map_get ix k); discriminate.
Qed.
Lemma patterns_full seed pl : forall g g', fold_res (add_pattern seed) pl g = Ret g' -> full (gs_index g) -> full (gs_index g').
Proof.
  induction pl as [|p t IH]; intros g g' E F; cbn [fold_res] in E; [injection E as <-; exact F|].
  apply bind_ret_inv in E. destruct E as (g1 & E1 & E). apply (IH _ _ E). clear E.
  unfold add_pattern in E1. apply bind_ret_inv in E1. destruct E1 as (cl & _ & E1).
  apply bind_ret_inv in E1. destruct E1 as (ix & Ei & E1). injection E1 as <-. cbn [gs_index].
  exact (gs_insert_full _ _ _ _ _ Ei F).
Qed.
Lemma aliases_full seed al : forall ix ix', fold_res (add_alias seed) al ix = Ret ix' -> full ix -> full ix'.
Proof.
  induction al as [|a t IH]; intros ix ix' E F; cbn [fold_res] in E; [injection E as <-; exact F|].
  apply bind_ret_inv in E. destruct E as (ix1 & E1 & E). apply (IH _ _ E). clear E.
  apply add_alias_inv in E1. destruct E1 as (canon & alias & off & k & _ & _ & _ & _ & Ei).
  exact (gs_insert_full _ _ _ _ _ Ei F).
Qed.

Lemma sorted_keys (l : list (ublock * block_index)) : StronglySorted (le_key (fun kb => fst (fst kb))) l ->
  StronglySorted (le_key (fun k : ublock => fst k)) (map fst l).
Proof.
  intros S. induction S as [|a t S IH Fa]; cbn [map]; constructor; [exact IH|].
  rewrite Forall_map. eapply Forall_impl; [|exact Fa]. intros kb H. exact H.
Qed.

Section Blocks.
  Variables (seed : N) (stored : list (str * N)) (blocks : list block).
  Hypothesis Hcheck : blocks_listb seed stored blocks = true.

  Lemma parts : StronglySorted N.lt (map b_low blocks) /\
    (forall b, In b blocks -> In (b_key b) known_blocks /\ StronglySorted N.lt (b_hash b)) /\
    (forall p, In p stored -> exists b, In b blocks /\ starts_in (b_key b) (fst p) = true) /\
    (forall b, In b blocks -> block_listb (map (entry_of seed) stored) b = true).
  Proof.
    unfold blocks_listb in Hcheck. cbv zeta in Hcheck. rewrite !andb_true_iff in Hcheck.
    destruct Hcheck as [[[H1 H2] H3] H4]. rewrite forallb_forall in H2, H3, H4.
    split; [apply ascending_sorted; exact H1|]. split; [|split].
    - intros b I. specialize (H2 b I). apply andb_prop in H2. destruct H2 as [Hk Ha].
      apply existsb_exists in Hk. destruct Hk as (k & Ik & Ek). apply ublock_eqb_spec in Ek. rewrite Ek.
      split; [exact Ik|apply ascending_sorted; exact Ha].
    - intros p I. specialize (H3 p I). apply existsb_exists in H3. exact H3.
    - exact H4.
  Qed.

  Lemma filter_entries k : filter (fun e => starts_in k (e_cluster e)) (map (entry_of seed) stored) =
    map (entry_of seed) (in_block k stored).
  Proof.
    unfold in_block. clear Hcheck. induction stored as [|p t IH]; [reflexivity|]. cbn [map filter entry_of e_cluster].
    destruct (starts_in k (fst p)); cbn [map]; rewrite IH; reflexivity.
  Qed.

  Lemma block_list b : In b blocks -> exists l, Permutation l (map (entry_of seed) (in_block (b_key b) stored)) /\
    map e_hash l = b_hash b /\ map e_offset l = b_offset b /\ cluster_length_list l = b_limits b /\ l <> [].
  Proof.
    intros I. destruct parts as (_ & _ & _ & H). specialize (H b I). unfold block_listb in H. cbv zeta in H.
    rewrite filter_entries in H. set (l := msort 20 _) in H. rewrite !andb_true_iff in H.
    destruct H as [[[H1 H2] H3] H4]. exists l. split; [apply msort_perm|].
    split; [apply eqlist_eq; exact H1|]. split; [apply eqlist_eq; exact H2|]. split; [apply lengths_ok; exact H3|].
    intros E. rewrite E in H4. discriminate.
  Qed.

  Lemma sorted_nodup (l : list N) : StronglySorted N.lt l -> NoDup l.
  Proof.
    intros S. induction S as [|a t S IH F]; constructor; [|exact IH].
    intros I. rewrite Forall_forall in F. specialize (F a I). lia.
  Qed.

  Lemma listed_no_collisions : no_collisions (fun s => go_murmur3 s seed) known_blocks (map fst stored).
  Proof.
    intros k Ik. destruct parts as (_ & Hk & Hs & _).
    destruct (in_block k stored) as [|p t] eqn:E.
    - assert (filter (starts_in k) (map fst stored) = []) as ->; [|constructor].
      unfold in_block in E. clear - E. induction stored as [|q u IH]; [reflexivity|]. cbn [map filter] in *.
      destruct (starts_in k (fst q)); [discriminate|apply IH; exact E].
    - assert (Ip : In p (in_block k stored)) by (rewrite E; left; reflexivity).
      apply in_block_in in Ip. destruct Ip as [Ip Sp].
      destruct (Hs p Ip) as (b & Ib & Sb). destruct (Hk b Ib) as [Kb Sorted_b].
      assert (b_key b = k) as <- by (eapply starts_unique; eassumption).
      destruct (block_list b Ib) as (l & P & Eh & _).
      apply (Permutation_map e_hash) in P. rewrite Eh, map_map in P. cbn [entry_of e_hash] in P.
      rewrite (map_in_block (fun s => go_murmur3 s seed)) in P.
      eapply Permutation_NoDup; [exact P|]. apply sorted_nodup. exact Sorted_b.
  Qed.

  Lemma listed_starts : Forall (fun cl => exists k, In k known_blocks /\ starts_in k cl = true) (map fst stored).
  Proof.
    destruct parts as (_ & Hk & Hs & _). apply Forall_forall. intros cl I.
    apply in_map_iff in I. destruct I as (p & <- & I). destruct (Hs p I) as (b & Ib & Sb).
    exists (b_key b). split; [apply Hk; exact Ib|exact Sb].
  Qed.

  Lemma listed_nodup : NoDup (map fst stored).
  Proof.
    pose proof listed_no_collisions as NC. pose proof listed_starts as LS. clear - NC LS.
    induction stored as [|p t IH]; cbn [map] in *; [constructor|].
    inversion LS as [|x y (k & Ik & Sk) LS']; subst. constructor.
    - intros I. specialize (NC k Ik). cbn [filter] in NC. rewrite Sk in NC. cbn [map] in NC.
      inversion NC as [|x y Hn _]; subst. apply Hn. apply in_map_iff. exists (fst p). split; [reflexivity|].
      apply filter_In. split; assumption.
    - apply IH; [|exact LS']. intros k' Ik'. specialize (NC k' Ik'). cbn [filter] in NC.
      destruct (starts_in k' (fst p)); [|exact NC]. cbn [map] in NC. inversion NC; assumption.
  Qed.

  Lemma blocks_rendered ix : holds seed ix stored -> full ix ->
    map render_block (sort_by (fun kb => fst (fst kb)) ix) = blocks.
  Proof.
    intros [Hd Hk Hs Hp Hsort] F.
    match goal with |- map render_block ?t = _ => set (s := t) end.
    assert (Ps : Permutation s ix) by apply sort_perm.
    assert (Ss : StronglySorted (le_key (fun k : ublock => fst k)) (map fst s)) by apply sorted_keys, sort_sorted.
    clearbody s.
    destruct parts as (Sb & Kb & Cb & _).
    (* the sorted keys *)
    assert (Ekeys : map fst s = map b_key blocks).
    { apply (sorted_unique (fun k : ublock => fst k)).
      - exact Ss.
      - clear - Sb. induction blocks as [|b t IH]; cbn [map] in *; [constructor|].
        inversion Sb as [|x y S' F']; subst. constructor; [apply IH; exact S'|].
        rewrite Forall_map. rewrite Forall_map in F'. eapply Forall_impl; [|exact F'].
        intros c H. change (b_low b <= b_low c). change (b_low b < b_low c) in H. lia.
      - assert (P : Permutation (map fst s) (map fst ix))
          by (apply Permutation_map; exact Ps).
        rewrite P. apply NoDup_Permutation; [exact Hd| |].
        + apply (NoDup_map_inv fst). rewrite map_map. cbn [b_key fst]. apply sorted_nodup. exact Sb.
        + intros k. split; intros I.
          * assert (Ik : In k known_blocks) by (apply Hk; exact I).
            apply in_map_iff in I. destruct I as ([k' v] & E & I). cbn [fst] in E. subst k'.
            assert (Hv : v <> []) by (unfold full in F; rewrite Forall_forall in F; exact (F _ I)).
            pose proof (Hp k Ik) as P'. rewrite (map_get_in ix k v Hd I) in P'.
            destruct (in_block k stored) as [|p t] eqn:E.
            { simpl in P'. symmetry in P'. apply Permutation_nil in P'. contradiction. }
            assert (Ip : In p (in_block k stored)) by (rewrite E; left; reflexivity).
            apply in_block_in in Ip. destruct Ip as [Ip Sp]. destruct (Cb p Ip) as (b & Ib & Sp').
            apply in_map_iff. exists b. split; [|exact Ib].
            apply (starts_unique (b_key b) k (fst p)); try assumption. apply Kb; exact Ib.
          * apply in_map_iff in I. destruct I as (b & <- & Ib).
            destruct (block_list b Ib) as (l & Pl & _ & _ & _ & Hl).
            destruct (in_dec (fun a b => match bool_dec (ublock_eqb a b) true with
              | left e => left (proj1 (ublock_eqb_spec a b) e)
              | right n => right (fun e => n (proj2 (ublock_eqb_spec a b) e)) end) (b_key b) (map fst ix)) as [I|I]; [exact I|].
            exfalso. apply map_get_out in I. pose proof (Hp (b_key b) (proj1 (Kb b Ib))) as P'.
            rewrite I in P'. apply Permutation_nil in P'. rewrite P' in Pl. symmetry in Pl.
            apply Permutation_nil in Pl. contradiction.
      - assert (P : Permutation (map fst s) (map fst ix))
          by (apply Permutation_map; exact Ps).
        assert (Hdl : NoDup (map (fun k : ublock => fst k) (map fst ix))).
        { clear - Hd Hk. induction (map fst ix) as [|k t IH]; cbn [map]; [constructor|].
          inversion Hd as [|x y Hn Hd']; subst. constructor.
          - intros I. apply in_map_iff in I. destruct I as (k' & E & I). apply Hn.
            assert (k' = k) as <-; [|exact I]. apply known_low; [apply Hk; right; exact I|apply Hk; left; reflexivity|exact E].
          - apply IH; [exact Hd'|]. intros k' I. apply Hk. right. exact I. }
        eapply Permutation_NoDup; [|exact Hdl]. apply Permutation_map. symmetry. exact P. }
    (* the entries *)
    assert (Eix : forall kb, In kb s -> snd kb = map_get ix (fst kb)).
    { intros [k v] I. symmetry. apply map_get_in; [exact Hd|].
      eapply Permutation_in; [exact Ps|exact I]. }
    assert (Eb : forall b, In b blocks -> render_block (b_key b, map_get ix (b_key b)) = b).
    { intros b Ib. destruct (block_list b Ib) as (l & P & Eh & Eo & El & _).
      destruct (Kb b Ib) as [Ik Sh].
      assert (map_get ix (b_key b) = l) as ->.
      { apply (sorted_unique e_hash).
        - apply Hsort. exact Ik.
        - clear - Sh Eh. rewrite <- Eh in Sh. clear Eh. induction l as [|e t IH]; cbn [map] in *; [constructor|].
          inversion Sh as [|x y S' F']; subst. constructor; [apply IH; exact S'|].
          rewrite Forall_map in F'. eapply Forall_impl; [|exact F']. intros e' H. change (e_hash e <= e_hash e'). change (e_hash e < e_hash e') in H. lia.
        - rewrite (Hp _ Ik). symmetry. exact P.
        - pose proof (Hp _ Ik) as P1. rewrite <- P in P1. apply (Permutation_map e_hash) in P1.
          rewrite Eh in P1. eapply Permutation_NoDup; [symmetry; exact P1|]. apply sorted_nodup. exact Sh. }
      unfold render_block, b_key. cbn [fst snd]. rewrite Eh, Eo, El. destruct b; reflexivity. }
    clear - Ekeys Eix Eb. revert Ekeys Eix Eb.
    generalize blocks. intros bs. revert s. induction bs as [|b bs IH]; intros [|kb l] Ek Ei Eb; try discriminate; [reflexivity|].
    cbn [map] in *. injection Ek as E1 E2. f_equal.
    - rewrite <- (Eb b) at 1 by (left; reflexivity). f_equal.
      destruct kb as [k v]. cbn [fst] in E1. subst k.
      pose proof (Ei _ (or_introl eq_refl)) as E. cbn [fst snd] in E. rewrite E. reflexivity.
    - apply IH; [exact E2| |].
      + intros kb' I. apply Ei. right. exact I.
      + intros b' I. apply Eb. right. exact I.
  Qed.
End Blocks.

(** ** DATA *)
Lemma pieces_back a : pieces_okb a = true -> Forall (fun p => p <> []) a ->
  forall fuel, (length a < fuel)%nat -> pieces fuel (concat a) = a.
Proof.
  intros H F. induction F as [|p rest Hp F IH]; intros fuel L.
  - destruct fuel; reflexivity.
  - destruct fuel as [|k]; [simpl in L; lia|]. cbn [concat pieces].
    assert (Hne : p ++ concat rest <> []) by (destruct p; [contradiction|discriminate]).
    destruct (p ++ concat rest) as [|x u] eqn:E; [contradiction|]. rewrite <- E. clear E.
    destruct rest as [|q r].
    + cbn [pieces_okb] in H. cbn [concat]. rewrite app_nil_r.
      rewrite firstn_all2 by lia. rewrite skipn_all2 by lia. destruct k; reflexivity.
    + change (Nat.eqb (length p) 512 && pieces_okb (q :: r) = true) in H.
      apply andb_prop in H. destruct H as [H1 H2]. apply Nat.eqb_eq in H1.
      rewrite <- H1. rewrite firstn_app, Nat.sub_diag, firstn_all, firstn_O, app_nil_r.
      rewrite skipn_app, Nat.sub_diag, skipn_all, skipn_O. cbn [app]. f_equal.
      apply IH; [exact H2|]. simpl in L |- *. lia.
Qed.

(** ** The whole font *)
Lemma generate_exact fs img csl al pl cls pairs stored fnt :
  pattern_list img fs csl = Ret pl ->
  Forall2 (fun cs cl => string_from_hex_gc (cs_hex cs) = Ret cl) csl cls ->
  Forall2 parses al pairs ->
  (forall canon alias, In (canon, alias) pairs -> In canon cls) ->
  resolve (combine cls (offsets_from 0 (map bp_words pl))) pairs = Some stored ->
  blocks_listb (fs_seed fs) stored (f_blocks fnt) = true ->
  f_max_height fnt = Z.to_N (fs_size fs) -> f_seed fnt = fs_seed fs ->
  concat (map bp_words pl) = concat (f_data fnt) ->
  pieces_okb (f_data fnt) = true -> Forall (fun p => p <> []) (f_data fnt) ->
  generate fs img csl al = Ret fnt.
Proof.
  intros Epl Hcls Hpairs Hcanon Hres Hb Hh Hseed Hdata Hp1 Hp2. unfold generate. rewrite Epl. cbn [bind].
  pose proof (pattern_list_cs img fs csl pl Epl) as Em.
  assert (Lc : length cls = length (offsets_from 0 (map bp_words pl))).
  { rewrite offsets_length, map_length, <- (map_length bp_cs pl), Em. symmetry. eapply Forall2_length'. exact Hcls. }
  pose proof (resolve_fst _ _ _ Hres) as Ef. rewrite combine_fst in Ef by exact Lc.
  pose proof (listed_starts _ _ _ Hb) as Hk. rewrite Ef in Hk. apply Forall_app in Hk. destruct Hk as [Hk1 Hk2].
  destruct (add_patterns_ok (fs_seed fs) pl cls (GlyphSet [] 0 [])) as (g & Eg).
  { clear - Hcls Hk1 Em. subst csl. revert cls Hcls Hk1. induction pl as [|p t IH]; intros cls F K; simpl in F.
    - inversion F. constructor.
    - inversion F as [|x y u v E F']; subst. inversion K; subst. constructor; auto. }
  unfold new_glyph_set_from. rewrite Eg. cbn [bind].
  destruct (new_set_inv _ _ _ Eg) as (cls0 & F0 & Hc & Hl & Hho).
  assert (cls0 = cls) as ->.
  { clear - F0 Hcls Em. subst csl. revert cls Hcls. induction F0 as [|p cl pl cls0 E F0 IH]; intros cls F; simpl in F.
    - inversion F. reflexivity.
    - inversion F as [|x y u v E' F']; subst. rewrite E in E'. injection E' as ->.
      f_equal. apply IH. exact F'. }
  destruct (add_aliases_ok (fs_seed fs) al pairs (gs_index g) _ Hpairs Hho) as (ix & Ei).
  { intros canon alias I. split.
    - rewrite combine_fst by exact Lc. apply (Hcanon canon alias I).
    - rewrite Forall_map in Hk2. rewrite Forall_forall in Hk2. exact (Hk2 _ I). }
  unfold add_aliases. rewrite Ei. cbn [bind]. f_equal.
  destruct (add_aliases_inv _ _ _ _ _ Hho Ei) as (pairs0 & stored0 & Fp0 & W & Hs).
  assert (pairs0 = pairs) as ->.
  { clear - Fp0 Hpairs. revert pairs Hpairs. induction Fp0 as [|a p al pairs0 [E1 E2] F0 IH]; intros pairs F.
    - inversion F. reflexivity.
    - inversion F as [|x y u v [E1' E2'] F']; subst. rewrite E1 in E1'. rewrite E2 in E2'.
      injection E1' as E1'. injection E2' as E2'. f_equal; [|apply IH; exact F'].
      destruct p, y; simpl in *; congruence. }
  assert (stored0 = stored) as ->.
  { assert (E0 : map fst stored0 = map fst stored).
    { rewrite (hash_aliases_clusters _ _ _ _ W), combine_fst by exact Lc. congruence. }
    assert (W' : with_aliases (combine cls (offsets_from 0 (map bp_words pl))) pairs stored0).
    { apply (hash_aliases_exact (fs_seed fs)); [exact W| |].
      - rewrite E0. exact (listed_no_collisions _ _ _ Hb).
      - intros canon alias I. rewrite combine_fst by exact Lc. apply (Hcanon canon alias I). }
    apply resolve_unique in W'; [congruence|]. rewrite E0. exact (listed_nodup _ _ _ Hb). }
  unfold render_font, index_keys. cbn [gs_code gs_index].
  rewrite (blocks_rendered _ _ _ Hb ix Hs).
  2:{ apply (aliases_full _ _ _ _ Ei). apply (patterns_full _ _ _ _ Eg). constructor. }
  rewrite Hc, Hdata, pieces_back; [|exact Hp1|exact Hp2|].
  - rewrite <- Hh, <- Hseed. destruct fnt; reflexivity.
  - clear - Hp2. induction Hp2 as [|p t Hp F IH]; cbn [concat length]; [lia|].
    rewrite app_length. destruct p; [contradiction|]. simpl. lia.
Qed.
