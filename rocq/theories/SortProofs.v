(** * Sorting by a key *)
From Coq Require Import ZArith Permutation Sorted.
From Verif Require Import PrimFacts Codegen.

Section Sort.
  Context {A : Type} (key : A -> N).

  Definition le_key (a b : A) : Prop := key a <= key b.
  Definition lt_key (a b : A) : Prop := key a < key b.

  Lemma insert_perm a l : Permutation (insert_by key a l) (a :: l).
  Proof.
    induction l as [|b t IH]; simpl; [reflexivity|].
    destruct (key a <=? key b); [reflexivity|].
    rewrite IH. apply perm_swap.
  Qed.

  Lemma sort_perm l : Permutation (sort_by key l) l.
  Proof.
    induction l as [|a t IH]; simpl; [reflexivity|].
    rewrite insert_perm. constructor. exact IH.
  Qed.

  Lemma insert_sorted a l : StronglySorted le_key l -> StronglySorted le_key (insert_by key a l).
  Proof.
    intros H. induction H as [|b t Ht IH Hb]; simpl; [repeat constructor|].
    destruct (N.leb_spec (key a) (key b)) as [L|L].
    - constructor; [constructor; assumption|]. constructor; [exact L|].
      eapply Forall_impl; [|exact Hb]. unfold le_key. intros c Hc. lia.
    - constructor; [exact IH|].
      eapply Permutation_Forall; [symmetry; apply insert_perm|].
      constructor; [unfold le_key; lia|exact Hb].
  Qed.

  Lemma sort_sorted l : StronglySorted le_key (sort_by key l).
  Proof. induction l as [|a t IH]; simpl; [constructor|]. apply insert_sorted. exact IH. Qed.

  Lemma sorted_strict l : StronglySorted le_key l -> NoDup (map key l) -> StronglySorted lt_key l.
  Proof.
    intros H. induction H as [|a t Ht IH Ha]; simpl; intros Hd; [constructor|].
    inversion Hd as [|x y Hn Hd']; subst. constructor; [apply IH; exact Hd'|].
    rewrite Forall_forall in *. intros b Hb. specialize (Ha b Hb). unfold le_key in Ha. unfold lt_key.
    assert (key a <> key b); [|lia]. intros E. apply Hn. rewrite E. apply in_map. exact Hb.
  Qed.

  (** With distinct keys there is only one sorted order, so it does not matter
      which sorting algorithm is used *)
  Lemma sorted_unique l1 l2 : StronglySorted le_key l1 -> StronglySorted le_key l2 ->
    Permutation l1 l2 -> NoDup (map key l1) -> l1 = l2.
  Proof.
    intros H1. revert l2. induction H1 as [|a t Ht IH Ha]; intros l2 H2 P D.
    - apply Permutation_nil in P. congruence.
    - destruct H2 as [|b u Hu Hb].
      + symmetry in P. apply Permutation_nil in P. discriminate.
      + assert (D' : NoDup (map key (b :: u))) by (eapply Permutation_NoDup; [apply Permutation_map; exact P|exact D]).
        assert (E : a = b).
        { assert (In a (b :: u)) as [->|Ia] by (eapply Permutation_in; [exact P|left; reflexivity]); [reflexivity|].
          assert (In b (a :: t)) as [->|Ib] by (eapply Permutation_in; [symmetry; exact P|left; reflexivity]); [reflexivity|].
          rewrite Forall_forall in Ha, Hb. specialize (Ha b Ib). specialize (Hb a Ia).
          unfold le_key in *. exfalso. inversion D as [|x y Hn _]; subst. apply Hn.
          assert (key a = key b) as -> by lia. apply in_map. exact Ib. }
        subst b. f_equal. apply IH; [exact Hu|eapply Permutation_cons_inv; exact P|].
        inversion D; assumption.
  Qed.

  Lemma sorted_nth l i j d : StronglySorted lt_key l -> (i < j < length l)%nat ->
    key (nth i l d) < key (nth j l d).
  Proof.
    intros H. revert i j. induction H as [|a t Ht IH Ha]; simpl; intros i j L; [lia|].
    destruct j as [|j]; [lia|]. destruct i as [|i].
    - simpl. rewrite Forall_forall in Ha. apply Ha. apply nth_In. lia.
    - simpl. apply IH. lia.
  Qed.
End Sort.

Lemma StronglySorted_map {A B} (f : A -> B) (R : B -> B -> Prop) l :
  StronglySorted (fun a b => R (f a) (f b)) l <-> StronglySorted R (map f l).
Proof.
  split.
  - intros H. induction H as [|a t Ht IH Ha]; simpl; constructor; [exact IH|].
    rewrite Forall_map. exact Ha.
  - induction l as [|a t IH]; simpl; intros H; constructor; inversion H as [|x y H1 H2]; subst.
    + apply IH; assumption.
    + rewrite Forall_map in H2. exact H2.
Qed.

Lemma strongly_sorted_lt_nth l : StronglySorted N.lt l ->
  forall i j, (i < j < length l)%nat -> nth i l 0 < nth j l 0.
Proof. intros H i j L. apply (sorted_nth (fun n => n) l i j 0); assumption. Qed.

(** Reversed, an ascending list is descending *)
Lemma sorted_rev {A} (R : A -> A -> Prop) l :
  StronglySorted R l -> StronglySorted (fun a b => R b a) (rev l).
Proof.
  intros H. induction H as [|a t Ht IH Ha]; simpl; [constructor|].
  assert (G : forall l, StronglySorted (fun a b => R b a) l -> Forall (fun b => R a b) l ->
    StronglySorted (fun a b => R b a) (l ++ [a])).
  { clear. intros l H. induction H as [|b t Ht IH Hb]; simpl; intros F.
    - constructor; constructor.
    - inversion F; subst. constructor; [apply IH; assumption|].
      apply Forall_app; split; [assumption|]. constructor; [assumption|constructor]. }
  apply G; [exact IH|]. apply Forall_rev. exact Ha.
Qed.
