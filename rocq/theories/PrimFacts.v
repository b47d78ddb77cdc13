(** * Facts about the primitives of Prim.v *)
From Coq Require Import ZArith.
From Coq Require Export ZifyBool ZifyNat ZifyN.
From Verif Require Export Prim.
Ltac Zify.zify_post_hook ::= Z.div_mod_to_equations.

Arguments N.add : simpl never.
Arguments N.mul : simpl never.
Arguments N.sub : simpl never.
Arguments N.div : simpl never.
Arguments N.modulo : simpl never.
Arguments N.shiftl : simpl never.
Arguments N.shiftr : simpl never.
Arguments N.testbit : simpl never.
Arguments N.pow : simpl never.
Arguments N.land : simpl never.
Arguments N.lor : simpl never.
Arguments N.lxor : simpl never.
Arguments N.to_nat : simpl never.
Arguments N.of_nat : simpl never.

(** ** usize arithmetic *)
Lemma cfg_ok_limit m : cfg_ok m -> 2 ^ 32 <= usize_limit m.
Proof.
  intros [H|H]; unfold usize_limit; rewrite H; vm_compute; congruence.
Qed.

Lemma limit_ge m : cfg_ok m -> 4294967296 <= usize_limit m.
Proof. exact (cfg_ok_limit m). Qed.

Lemma uadd_ok m a b : a + b < usize_limit m -> uadd m a b = Ret (a + b).
Proof.
  intros H; unfold uadd; destruct (N.ltb_spec (a + b) (usize_limit m)); [reflexivity|lia].
Qed.

Lemma usub_ok m a b : b <= a -> usub m a b = Ret (a - b).
Proof. intros H; unfold usub; destruct (N.leb_spec b a); [reflexivity|lia]. Qed.

Lemma umul_ok m a b : a * b < usize_limit m -> umul m a b = Ret (a * b).
Proof.
  intros H; unfold umul; destruct (N.ltb_spec (a * b) (usize_limit m)); [reflexivity|lia].
Qed.

Lemma shl32_ok m a k : k < 32 -> shl32 m a k = Ret (w32 (N.shiftl a k)).
Proof. intros H; unfold shl32; destruct (N.ltb_spec k 32); [reflexivity|lia]. Qed.

Lemma shr32_ok m a k : k < 32 -> shr32 m a k = Ret (N.shiftr a k).
Proof. intros H; unfold shr32; destruct (N.ltb_spec k 32); [reflexivity|lia]. Qed.

Lemma ushr5_div a : ushr5 a = a / 32.
Proof. unfold ushr5; rewrite N.shiftr_div_pow2; reflexivity. Qed.

Lemma uand1f_mod a : uand1f a = a mod 32.
Proof. unfold uand1f. change 0x1f with (N.ones 5). rewrite N.land_ones. reflexivity. Qed.

(** ** u32 words *)
Lemma u32max_ones : u32max = N.ones 32.
Proof. reflexivity. Qed.

Lemma w32_mod x : w32 x = x mod 2 ^ 32.
Proof. unfold w32; rewrite u32max_ones, N.land_ones; reflexivity. Qed.

Lemma w32_lt x : w32 x < 2 ^ 32.
Proof. rewrite w32_mod; apply N.mod_lt; discriminate. Qed.

Lemma w32_small x : x < 2 ^ 32 -> w32 x = x.
Proof. intros H; rewrite w32_mod; apply N.mod_small; exact H. Qed.

Lemma w32_testbit x i : N.testbit (w32 x) i = (i <? 32) && N.testbit x i.
Proof.
  unfold w32; rewrite N.land_spec, u32max_ones.
  destruct (N.ltb_spec i 32).
  - rewrite N.ones_spec_low by assumption; rewrite andb_true_r; reflexivity.
  - rewrite N.ones_spec_high by assumption; rewrite andb_false_r; reflexivity.
Qed.

Lemma u32max_testbit i : N.testbit u32max i = (i <? 32).
Proof.
  rewrite u32max_ones; destruct (N.ltb_spec i 32).
  - apply N.ones_spec_low; assumption.
  - apply N.ones_spec_high; assumption.
Qed.

Lemma testbit_high x n i : x < 2 ^ n -> n <= i -> N.testbit x i = false.
Proof.
  intros Hx Hi; destruct (N.eq_dec x 0) as [->|Hnz]; [apply N.bits_0|].
  apply N.bits_above_log2; apply N.log2_lt_pow2 in Hx; lia.
Qed.

Lemma lt_pow2_of_testbit x n : (forall i, n <= i -> N.testbit x i = false) -> x < 2 ^ n.
Proof.
  intros H. destruct (N.eq_dec x 0) as [->|Hnz]; [apply N.neq_0_lt_0, N.pow_nonzero; discriminate|].
  apply N.log2_lt_pow2; [lia|].
  destruct (N.lt_ge_cases (N.log2 x) n) as [Hl|Hl]; [assumption|].
  specialize (H _ Hl); rewrite N.bit_log2 in H by assumption; discriminate.
Qed.

Lemma lor_lt x y n : x < 2 ^ n -> y < 2 ^ n -> N.lor x y < 2 ^ n.
Proof.
  intros Hx Hy; apply lt_pow2_of_testbit; intros i Hi.
  rewrite N.lor_spec, (testbit_high x n), (testbit_high y n) by assumption; reflexivity.
Qed.

Lemma lxor_lt x y n : x < 2 ^ n -> y < 2 ^ n -> N.lxor x y < 2 ^ n.
Proof.
  intros Hx Hy; apply lt_pow2_of_testbit; intros i Hi.
  rewrite N.lxor_spec, (testbit_high x n), (testbit_high y n) by assumption; reflexivity.
Qed.

Lemma shiftr_lt x k n : x < 2 ^ n -> N.shiftr x k < 2 ^ n.
Proof.
  intros Hx; apply lt_pow2_of_testbit; intros i Hi.
  rewrite N.shiftr_spec', (testbit_high x n) by lia; reflexivity.
Qed.

Lemma shiftl_testbit a k i :
  N.testbit (N.shiftl a k) i = (k <=? i) && N.testbit a (i - k).
Proof.
  destruct (N.leb_spec k i).
  - rewrite N.shiftl_spec_high' by assumption; reflexivity.
  - rewrite N.shiftl_spec_low by assumption; reflexivity.
Qed.

(** ** arrays *)
Lemma nth_error_nth' {A} (l : list A) i d :
  (i < length l)%nat -> nth_error l i = Some (nth i l d).
Proof.
  revert i; induction l as [|h t IH]; intros i Hi; simpl in Hi; [lia|].
  destruct i; simpl; [reflexivity|apply IH; lia].
Qed.

Lemma aget_ok {A} (l : list A) i d :
  i < N.of_nat (length l) -> aget l i = Ret (nth (N.to_nat i) l d).
Proof. intros H; unfold aget; rewrite (nth_error_nth' l _ d) by lia; reflexivity. Qed.

Lemma aget_panic {A} (l : list A) i : N.of_nat (length l) <= i -> aget l i = Panic.
Proof.
  intros H; unfold aget.
  assert (Hn : nth_error l (N.to_nat i) = None) by (apply nth_error_None; lia).
  rewrite Hn; reflexivity.
Qed.

Lemma aget_ret {A} (l : list A) i v : aget l i = Ret v -> i < N.of_nat (length l).
Proof.
  unfold aget; destruct (nth_error l (N.to_nat i)) eqn:E; [intros _|discriminate].
  assert (N.to_nat i < length l)%nat by (apply nth_error_Some; congruence). lia.
Qed.

Lemma upd_length {A} (l : list A) i v : length (upd l i v) = length l.
Proof.
  revert i; induction l as [|h t IH]; intros i; simpl; [reflexivity|].
  destruct i; simpl; [reflexivity|rewrite IH; reflexivity].
Qed.

Lemma upd_nth {A} (l : list A) i v j d :
  (i < length l)%nat -> nth j (upd l i v) d = if Nat.eqb j i then v else nth j l d.
Proof.
  revert i j; induction l as [|h t IH]; intros i j Hi; simpl in Hi; [lia|].
  destruct i, j; simpl; try reflexivity.
  rewrite IH by lia; reflexivity.
Qed.

Lemma aset_ok {A} (l : list A) i v :
  i < N.of_nat (length l) -> aset l i v = Ret (upd l (N.to_nat i) v).
Proof.
  intros H; unfold aset.
  destruct (nth_error l (N.to_nat i)) eqn:E; [reflexivity|].
  apply nth_error_None in E; lia.
Qed.

Lemma Forall_upd {A} (P : A -> Prop) l i v :
  Forall P l -> P v -> Forall P (upd l i v).
Proof.
  intros Hl Hv; revert i; induction Hl as [|h t Hh Ht IH]; intros i; simpl; [constructor|].
  destruct i; constructor; auto.
Qed.

Lemma Forall_nth_in {A} (P : A -> Prop) l i d :
  Forall P l -> (i < length l)%nat -> P (nth i l d).
Proof. intros H Hi; rewrite Forall_forall in H; apply H, nth_In; exact Hi. Qed.

(** ** loops *)
Lemma for_n_inv {S} (P : N -> S -> Prop) (body : N -> S -> res S) n i st :
  P i st ->
  (forall j st, i <= j < i + N.of_nat n -> P j st ->
     exists st', body j st = Ret st' /\ P (j + 1) st') ->
  exists st', for_n n i body st = Ret st' /\ P (i + N.of_nat n) st'.
Proof.
  revert i st; induction n as [|n IH]; intros i st H0 Hs; simpl.
  - exists st; split; [reflexivity|].
    replace (i + N.of_nat 0) with i by lia; exact H0.
  - destruct (Hs i st ltac:(lia) H0) as (st1 & E1 & H1).
    rewrite E1; simpl.
    destruct (IH (i + 1) st1 H1) as (st2 & E2 & H2).
    { intros j s Hj HP; apply Hs; [lia|exact HP]. }
    exists st2; split; [exact E2|].
    replace (i + N.of_nat (Datatypes.S n)) with (i + 1 + N.of_nat n) by lia; exact H2.
Qed.

Lemma for_range_inv {S} (P : N -> S -> Prop) (body : N -> S -> res S) lo hi st :
  lo <= hi -> P lo st ->
  (forall j st, lo <= j < hi -> P j st ->
     exists st', body j st = Ret st' /\ P (j + 1) st') ->
  exists st', for_range lo hi body st = Ret st' /\ P hi st'.
Proof.
  intros Hle H0 Hs; unfold for_range.
  destruct (for_n_inv P body (N.to_nat (hi - lo)) lo st H0) as (st' & E & H').
  { intros j s Hj HP; apply Hs; [lia|exact HP]. }
  exists st'; split; [exact E|].
  replace (lo + N.of_nat (N.to_nat (hi - lo))) with hi in H' by lia; exact H'.
Qed.

Lemma for_range_empty {S} (body : N -> S -> res S) lo hi st :
  hi <= lo -> for_range lo hi body st = Ret st.
Proof.
  intros H; unfold for_range.
  replace (N.to_nat (hi - lo)) with O by lia; reflexivity.
Qed.

(** ** results *)
Lemma bind_ret_inv {A B} (x : res A) (f : A -> res B) r :
  bind x f = Ret r -> exists a, x = Ret a /\ f a = Ret r.
Proof. destruct x as [a|]; simpl; [eauto|discriminate]. Qed.

(** ** Checking a result by computation *)
Definition ret_check {A} (r : res A) (f : A -> bool) : bool :=
  match r with Ret a => f a | Panic => false end.

Lemma ret_check_ex {A} (r : res A) (f : A -> bool) (P : A -> Prop) :
  (forall a, f a = true -> P a) -> ret_check r f = true -> exists a, r = Ret a /\ P a.
Proof. intros H E; destruct r as [a|]; simpl in E; [exists a; auto|discriminate]. Qed.

Lemma all_cfgs (P : cfg -> Prop) :
  P (Cfg false 32) -> P (Cfg true 32) -> P (Cfg false 64) -> P (Cfg true 64) ->
  forall m, cfg_ok m -> P m.
Proof. intros A B C D [[] b] [H|H]; simpl in H; subst b; assumption. Qed.
