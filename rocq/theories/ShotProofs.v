(** * Screenshots: comparison row by row *)
From Coq Require Import ZArith String Ascii.
From Verif Require Import Prim PrimFacts Str Geom Spec SpecWasm TrimProofs SpecShot.
Local Open Scope N_scope.
Local Open Scope list_scope.
Local Notation length := List.length.

Definition word_bits (w : N) : list bool := map (fun k => N.testbit w (N.of_nat k)) (seq 0 32).
Definition ink (b : bool) : ascii := if b then "."%char else "#"%char.
(** Row y of the page *)
Definition page_row (words : list N) (left right : nat) : list ascii :=
  repeat "+"%char left ++ map ink (firstn 336 (flat_map word_bits words)) ++ repeat "+"%char right.
Fixpoint list_of (s : string) : list ascii := match s with EmptyString => [] | String a t => a :: list_of t end.
Fixpoint same_row (a b : list ascii) : bool :=
  match a, b with
  | [], [] => true
  | x :: a', y :: b' => Ascii.eqb x y && same_row a' b'
  | _, _ => false
  end.
Fixpoint rows_ok (fb : list N) (left right : nat) (rows : list string) : bool :=
  match rows with
  | [] => true
  | r :: rest => same_row (list_of r) (page_row (firstn 11 fb) left right) && rows_ok (skipn 11 fb) left right rest
  end.
Definition shot_ok (fb : list N) (left right top : nat) (shot : list string) : bool :=
  forallb (fun r => same_row (list_of r) (repeat "+"%char (left + 336 + right))) (firstn top shot)
  && rows_ok fb left right (skipn top shot).

Lemma same_row_eq a : forall b, same_row a b = true -> a = b.
Proof.
  induction a as [|x a IH]; intros [|y b] H; try discriminate; [reflexivity|].
  cbn in H. apply andb_prop in H. destruct H as [H1 H2]. apply Ascii.eqb_eq in H1. subst. f_equal. apply IH. exact H2.
Qed.

Lemma get_list s : forall x, String.get x s = nth_error (list_of s) x.
Proof. induction s as [|a s IH]; intros [|x]; try reflexivity. cbn. apply IH. Qed.

Lemma nth_bits words : forall x, (x < 32 * length words)%nat ->
  nth_error (flat_map word_bits words) x = Some (N.testbit (nth (x / 32) words 0) (N.of_nat (x mod 32))).
Proof.
  induction words as [|w words IH]; intros x Hx; [cbn in Hx; lia|]. cbn [flat_map].
  assert (L : length (word_bits w) = 32%nat) by reflexivity.
  destruct (Nat.lt_ge_cases x 32) as [Hl|Hl].
  - rewrite nth_error_app1 by lia. rewrite Nat.div_small, Nat.mod_small by lia. cbn [nth]. unfold word_bits.
    rewrite nth_error_map. rewrite nth_error_nth' with (d := 0%nat) by (rewrite seq_length; lia).
    rewrite seq_nth by lia. reflexivity.
  - rewrite nth_error_app2 by lia. rewrite L. rewrite IH by (cbn [length] in Hx; lia).
    assert (E : x = (1 * 32 + (x - 32))%nat) by lia. rewrite E at 3. rewrite E at 4.
    rewrite Nat.div_add_l by lia. rewrite (Nat.add_comm (1 * 32)), Nat.mod_add by lia. reflexivity.
Qed.

Lemma page_row_at words left right x : length words = 11%nat -> (x < left + 336 + right)%nat ->
  nth_error (page_row words left right) x =
  Some (if (Nat.leb left x && Nat.ltb x (left + 336))%bool
        then ink (N.testbit (nth ((x - left) / 32) words 0) (N.of_nat ((x - left) mod 32))) else "+"%char).
Proof.
  intros L Hx. unfold page_row.
  assert (Lb : length (flat_map word_bits words) = 352%nat).
  { clear Hx. do 12 (destruct words as [|? words]; try discriminate L). reflexivity. }
  assert (Lf : length (map ink (firstn 336 (flat_map word_bits words))) = 336%nat)
    by (rewrite map_length, firstn_length, Lb; reflexivity).
  assert (R : forall n k, (k < n)%nat -> nth_error (repeat "+"%char n) k = Some "+"%char).
  { induction n as [|n IHn]; intros [|k] Hk; try lia; [reflexivity|]. cbn. apply IHn. lia. }
  destruct (Nat.leb_spec left x) as [H1|H1].
  - rewrite nth_error_app2 by (rewrite repeat_length; exact H1). rewrite repeat_length.
    destruct (Nat.ltb_spec x (left + 336)) as [H2|H2]; cbn [andb].
    + rewrite nth_error_app1 by lia. rewrite nth_error_map.
      assert (F : nth_error (firstn 336 (flat_map word_bits words)) (x - left) = nth_error (flat_map word_bits words) (x - left)).
      { rewrite <- (firstn_skipn 336 (flat_map word_bits words)) at 2. rewrite nth_error_app1; [reflexivity|].
        rewrite firstn_length, Lb. lia. }
      rewrite F, nth_bits by (rewrite L; lia). reflexivity.
    + rewrite nth_error_app2 by lia. rewrite Lf. apply R. lia.
  - cbn [andb]. rewrite nth_error_app1 by (rewrite repeat_length; lia). apply R. exact H1.
Qed.

Lemma skipn_more {A} (l : list A) k n : skipn n (skipn k l) = skipn (k + n) l.
Proof. revert l. induction k as [|k IH]; intros l; [reflexivity|]. destruct l; [rewrite !skipn_nil; reflexivity|]. cbn. apply IH. Qed.

Lemma rows_at left right rows : forall fb y r, rows_ok fb left right rows = true -> nth_error rows y = Some r ->
  list_of r = page_row (firstn 11 (skipn (11 * y) fb)) left right.
Proof.
  induction rows as [|r0 rows IH]; intros fb y r H E; [destruct y; discriminate|].
  cbn [rows_ok] in H. apply andb_prop in H. destruct H as [H1 H2]. destruct y as [|y].
  - injection E as <-. apply same_row_eq in H1. exact H1.
  - cbn in E. rewrite (IH _ _ _ H2 E). do 2 f_equal.
    replace (11 * S y)%nat with (11 + 11 * y)%nat by lia. apply skipn_more.
Qed.

Lemma shot_sound fb left right top shot : shot_ok fb left right top shot = true -> N.of_nat (length fb) = 5896 ->
  (length shot <= top + 536)%nat -> (top <= length shot)%nat ->
  forall x y, (x < left + 336 + right)%nat -> (y < length shot)%nat ->
  shot_pixel shot x y =
  Some (if (Nat.leb left x && Nat.ltb x (left + 336) && Nat.leb top y && Nat.ltb y (top + 536))%bool
        then ink (pixel fb (N.of_nat (x - left)) (N.of_nat (y - top))) else "+"%char).
Proof.
  intros H Lfb L1 L2 x y Hx Hy. unfold shot_ok in H. apply andb_prop in H. destruct H as [Ha Hb].
  unfold shot_pixel. destruct (nth_error shot y) as [r|] eqn:Er; [|apply nth_error_None in Er; lia].
  rewrite get_list. destruct (Nat.leb_spec top y) as [H1|H1].
  - assert (E : nth_error (skipn top shot) (y - top) = Some r).
    { rewrite <- Er. rewrite <- (firstn_skipn top shot) at 2. rewrite nth_error_app2 by (rewrite firstn_length; lia).
      rewrite firstn_length. f_equal. lia. }
    rewrite (rows_at _ _ _ _ _ _ Hb E).
    assert (Lr : length (firstn 11 (skipn (11 * (y - top)) fb)) = 11%nat) by (rewrite firstn_length, skipn_length; lia).
    rewrite (page_row_at _ left right x Lr Hx).
    assert (H2 : (y <? top + 536)%nat = true) by (apply Nat.ltb_lt; lia). rewrite H2.
    destruct (Nat.leb left x && Nat.ltb x (left + 336))%bool eqn:Ex; cbn [andb]; [|reflexivity].
    apply andb_prop in Ex. destruct Ex as [Ex1 Ex2]. apply Nat.leb_le in Ex1. apply Nat.ltb_lt in Ex2.
    unfold pixel, WORDS_PER_LINE. do 2 f_equal.
    assert (D1 : N.of_nat (x - left) / 32 = N.of_nat ((x - left) / 32)) by (rewrite Nat2N.inj_div; reflexivity).
    assert (D2 : N.of_nat (x - left) mod 32 = N.of_nat ((x - left) mod 32)) by (rewrite Nat2N.inj_mod; reflexivity).
    rewrite D1, D2. f_equal.
    assert (B : ((x - left) / 32 < 11)%nat) by (apply Nat.div_lt_upper_bound; lia).
    rewrite nth_firstn by exact B. rewrite nth_skipn. f_equal. lia.
  - assert (Ir : In r (firstn top shot)).
    { apply (nth_error_In _ y). rewrite <- Er. rewrite <- (firstn_skipn top shot) at 2. rewrite nth_error_app1; [reflexivity|].
      rewrite firstn_length. lia. }
    rewrite forallb_forall in Ha. specialize (Ha r Ir). apply same_row_eq in Ha. rewrite Ha.
    rewrite andb_false_r. cbn [andb]. clear - Hx. revert x Hx. induction (left + 336 + right)%nat as [|n IH]; intros [|x] Hx; try lia; [reflexivity|].
    cbn. apply IH. lia.
Qed.
