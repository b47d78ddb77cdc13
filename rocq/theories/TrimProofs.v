(** * Trim removes blank rows and columns only *)
From Coq Require Import ZArith.
From Verif Require Import PrimFacts FontDefs SpecCodegen Codegen PackProofs.

(** Entry of a matrix, 0 outside *)
Definition at_ (m : matrix) (r c : nat) : Z := nth c (nth r m []) 0%Z.

Definition inky (m : matrix) : Prop := exists r c, is_set m r c = true.

Lemma is_set_at m r c : is_set m r c = (0 <? at_ m r c)%Z.
Proof. reflexivity. Qed.

Lemma at_row_out m w h r c : rect m w h -> (h <= r)%nat -> at_ m r c = 0%Z.
Proof. intros [Hl _] H. unfold at_. rewrite (nth_overflow m) by lia. destruct c; reflexivity. Qed.

Lemma at_col_out m w h r c : rect m w h -> (w <= c)%nat -> at_ m r c = 0%Z.
Proof.
  intros R H. destruct (Nat.lt_ge_cases r h) as [Hr|Hr].
  - unfold at_. apply nth_overflow. rewrite (rect_row m w h r R Hr). exact H.
  - apply (at_row_out m w h); assumption.
Qed.

Lemma set_inside m w h r c : rect m w h -> is_set m r c = true -> (r < h)%nat /\ (c < w)%nat.
Proof.
  intros R Sx. rewrite is_set_at in Sx.
  destruct (Nat.lt_ge_cases r h) as [Hr|Hr].
  - destruct (Nat.lt_ge_cases c w) as [Hc|Hc]; [auto|].
    rewrite (at_col_out m w h) in Sx by assumption. discriminate.
  - rewrite (at_row_out m w h) in Sx by assumption. discriminate.
Qed.

Lemma nonneg_at m r c : nonneg m -> (0 <= at_ m r c)%Z.
Proof.
  intros H. unfold at_. destruct (Nat.lt_ge_cases r (length m)) as [Hr|Hr].
  - pose proof (Forall_nth_in _ m r [] H Hr) as Hrow. cbv beta in Hrow.
    destruct (Nat.lt_ge_cases c (length (nth r m []))) as [Hc|Hc].
    + exact (Forall_nth_in (fun v => 0 <= v)%Z _ c 0%Z Hrow Hc).
    + rewrite nth_overflow by assumption. lia.
  - rewrite (nth_overflow m) by assumption. destruct c; simpl; lia.
Qed.

(** ** transpose *)
Lemma map_res_ok {A B} (f : A -> res B) (g : A -> B) l :
  (forall a, In a l -> f a = Ret (g a)) -> map_res f l = Ret (map g l).
Proof.
  induction l as [|a t IH]; intros H; simpl; [reflexivity|].
  rewrite (H a) by (left; reflexivity). cbn [bind].
  rewrite IH by (intros b Hb; apply H; right; exact Hb). reflexivity.
Qed.

Lemma transpose_ok m w h : rect m w h -> nonneg m ->
  exists t, transpose m = Ret t /\ nonneg t /\
    (m = [] /\ t = [] \/
     m <> [] /\ rect t h w /\ forall r c, at_ t c r = at_ m r c).
Proof.
  intros R Hn. destruct m as [|row0 m'] eqn:Em.
  - exists []. split; [reflexivity|]. split; [constructor|]. left; auto.
  - rewrite <- Em in *.
    assert (Hf : first_len m = w) by (subst m; destruct R as [_ R]; inversion R; assumption).
    assert (Hl : length m = h) by apply R.
    set (t := map (fun col => map (fun row => nth col row 0%Z) m) (seq 0 w)).
    assert (Ht : transpose m = Ret t).
    { unfold transpose. rewrite Hf. apply map_res_ok. intros col Hcol. apply in_seq in Hcol.
      apply map_res_ok. intros row Hrow. destruct R as [_ R]. rewrite Forall_forall in R.
      rewrite (aget_ok row _ 0%Z) by (rewrite (R row Hrow); lia). rewrite Nnat.Nat2N.id. reflexivity. }
    exists t. split; [exact Ht|].
    assert (Rt : rect t h w).
    { split; [unfold t; rewrite map_length, seq_length; reflexivity|].
      unfold t. rewrite Forall_map. apply Forall_forall. intros col _. rewrite map_length. exact Hl. }
    assert (Hat : forall r c, at_ t c r = at_ m r c).
    { intros r c. destruct (Nat.lt_ge_cases c w) as [Hc|Hc].
      - unfold at_, t.
        rewrite (nth_indep _ [] (map (fun row => nth 0%nat row 0%Z) m)) by (rewrite map_length, seq_length; exact Hc).
        rewrite (map_nth (fun col => map (fun row => nth col row 0%Z) m)).
        rewrite seq_nth by exact Hc. cbn [plus].
        destruct (Nat.lt_ge_cases r h) as [Hr|Hr].
        + rewrite (nth_indep _ 0%Z (nth c [] 0%Z)) by (rewrite map_length; lia).
          rewrite (map_nth (fun row => nth c row 0%Z)). reflexivity.
        + rewrite nth_overflow by (rewrite map_length; lia).
          rewrite (nth_overflow m) by lia. destruct c; reflexivity.
      - rewrite (at_row_out t h w) by assumption. rewrite (at_col_out m w h) by assumption. reflexivity. }
    split.
    + unfold nonneg, t. rewrite Forall_map. apply Forall_forall. intros c _.
      rewrite Forall_map. apply Forall_forall. intros row Hrow.
      unfold nonneg in Hn. rewrite Forall_forall in Hn. specialize (Hn row Hrow).
      destruct (Nat.lt_ge_cases c (length row)) as [Hc|Hc].
      * exact (Forall_nth_in (fun v => 0 <= v)%Z row c 0%Z Hn Hc).
      * rewrite nth_overflow by assumption. lia.
    + right. split; [subst m; discriminate|]. auto.
Qed.

(** ** trimLeadingEmptyRows *)
Lemma row_sum_from row a : Forall (fun v => 0 <= v)%Z row ->
  (fold_left Z.add row a = a <-> Forall (fun v => v = 0)%Z row) /\ (a <= fold_left Z.add row a)%Z.
Proof.
  intros H. revert a. induction H as [|v row Hv Hrow IH]; intros a; simpl.
  - split; [split; [constructor|reflexivity]|lia].
  - destruct (IH (a + v)%Z) as [[I1 I2] I3]. split; [split|]; [intros E|intros E|lia].
    + assert (v = 0%Z) by lia. subst v. constructor; [reflexivity|]. apply I1. lia.
    + inversion E; subst. rewrite I2 by assumption. lia.
Qed.

Lemma row_sum_blank m r : nonneg m -> (r < length m)%nat ->
  (row_sum (nth r m []) = 0%Z <-> row_blank m r).
Proof.
  intros Hn Hr. unfold row_sum.
  pose proof (Forall_nth_in _ m r [] Hn Hr) as Hrow. cbv beta in Hrow.
  destruct (row_sum_from _ 0%Z Hrow) as [E _]. rewrite E. split.
  - intros H c. unfold is_set. destruct (Nat.lt_ge_cases c (length (nth r m []))) as [Hc|Hc].
    + rewrite (Forall_nth_in (fun v => v = 0%Z) _ c 0%Z H Hc). reflexivity.
    + rewrite nth_overflow by assumption. reflexivity.
  - intros H. apply Forall_forall. intros v Hv. apply (In_nth _ _ 0%Z) in Hv.
    destruct Hv as (c & Hc & <-). specialize (H c). unfold is_set in H.
    pose proof (Forall_nth_in (fun v => 0 <= v)%Z _ c 0%Z Hrow Hc) as H0. cbv beta in H0. lia.
Qed.

Lemma trim_loop_spec n m : nonneg m ->
  (exists k, trim_loop n m = Ret (skipn k m) /\ (k <= n)%nat /\ (k <= length m)%nat /\
     (forall r, (r < k)%nat -> row_blank m r) /\ (k = n \/ (k < length m)%nat /\ ~ row_blank m k)) \/
  (trim_loop n m = Panic /\ (length m < n)%nat /\ ~ inky m).
Proof.
  revert m. induction n as [|n IH]; intros m Hn.
  - left. exists O. repeat split; try lia.
  - destruct m as [|row m']; cbn [trim_loop].
    + right. split; [reflexivity|]. split; [simpl; lia|].
      intros (r & c & Sx). destruct r; destruct c; discriminate Sx.
    + pose proof (row_sum_blank (row :: m') 0 Hn ltac:(simpl; lia)) as H0. cbn [nth] in H0.
      destruct (Z.eqb_spec (row_sum row) 0) as [E|E].
      * apply H0 in E. inversion Hn as [|? ? Hrow Hn']; subst.
        destruct (IH m' Hn') as [(k & Ek & L1 & L2 & B & M)|(Ep & L & Hi)].
        -- left. exists (S k). cbn [skipn length]. split; [exact Ek|]. repeat split; try lia.
           ++ intros r Hr. destruct r as [|r]; [exact E|]. apply (B r). lia.
           ++ destruct M as [->|[M1 M2]]; [left; reflexivity|right]. split; [lia|]. exact M2.
        -- right. split; [exact Ep|]. cbn [length]. split; [lia|].
           intros (r & c & Sx). destruct r as [|r].
           ++ specialize (E c). congruence.
           ++ apply Hi. exists r, c. exact Sx.
      * left. exists O. split; [reflexivity|]. cbn [length]. repeat split; try lia.
        right. split; [lia|]. intros B. apply E, H0, B.
Qed.

(** k rows off the top, all blank, no more than the limit, as many as possible *)
Definition trimmed (lim : Z) (m : matrix) (k : nat) : Prop :=
  (k <= Z.to_nat lim)%nat /\ (k <= length m)%nat /\ (forall r, (r < k)%nat -> row_blank m r) /\
  (k = Z.to_nat lim \/ k = length m \/ ~ row_blank m k).

Lemma trim_leading_spec lim m : nonneg m ->
  (exists k, trim_leading_empty_rows lim m = Ret (skipn k m) /\ trimmed lim m k) \/
  (trim_leading_empty_rows lim m = Panic /\ (length m < Z.to_nat lim)%nat /\ ~ inky m).
Proof.
  intros Hn. destruct m as [|row m'].
  - left. exists O. split; [reflexivity|]. repeat split; simpl; try lia.
  - unfold trim_leading_empty_rows.
    destruct (trim_loop_spec (Z.to_nat lim) (row :: m') Hn) as [(k & E & L1 & L2 & B & M)|(E & L & Hi)].
    + left. exists k. split; [exact E|]. repeat split; try assumption. tauto.
    + right. auto.
Qed.

Lemma nth_rev_rows (m : matrix) r : (r < length m)%nat -> nth r (rev m) [] = nth (length m - S r) m [].
Proof. intros H. apply rev_nth. exact H. Qed.

Lemma rev_blank m r : (r < length m)%nat -> row_blank (rev m) r <-> row_blank m (length m - S r).
Proof.
  intros H. unfold row_blank, is_set. rewrite nth_rev_rows by exact H. reflexivity.
Qed.

Lemma nonneg_rev m : nonneg m -> nonneg (rev m).
Proof. intros H. apply Forall_rev. exact H. Qed.

Lemma nonneg_skipn k m : nonneg m -> nonneg (skipn k m).
Proof. intros H. rewrite <- (firstn_skipn k m) in H. apply Forall_app in H. apply H. Qed.
Lemma nonneg_firstn k m : nonneg m -> nonneg (firstn k m).
Proof. intros H. rewrite <- (firstn_skipn k m) in H. apply Forall_app in H. apply H. Qed.

Lemma inky_rev m : inky (rev m) <-> inky m.
Proof.
  assert (H : forall m, inky m -> inky (rev m)).
  { clear m. intros m (r & c & Sx). 
    assert (Hr : (r < length m)%nat).
    { destruct (Nat.lt_ge_cases r (length m)) as [L|L]; [exact L|].
      unfold is_set in Sx. rewrite (nth_overflow m) in Sx by exact L. destruct c; discriminate. }
    exists (length m - S r)%nat, c. unfold is_set.
    rewrite nth_rev_rows by lia. replace (length m - S (length m - S r))%nat with r by lia. exact Sx. }
  split; [|apply H]. intros I. apply H in I. rewrite rev_involutive in I. exact I.
Qed.

(** k rows off the bottom *)
Definition trimmed_end (lim : Z) (m : matrix) (k : nat) : Prop :=
  (k <= Z.to_nat lim)%nat /\ (k <= length m)%nat /\
  (forall r, (length m - k <= r < length m)%nat -> row_blank m r) /\
  (k = Z.to_nat lim \/ k = length m \/ ~ row_blank m (length m - S k)).

Lemma trim_trailing_spec lim m : nonneg m ->
  (exists k, trim_leading_empty_rows lim (rev m) = Ret (rev (firstn (length m - k) m)) /\
     trimmed_end lim m k) \/
  (trim_leading_empty_rows lim (rev m) = Panic /\ (length m < Z.to_nat lim)%nat /\ ~ inky m).
Proof.
  intros Hn. destruct (trim_leading_spec lim (rev m) (nonneg_rev m Hn))
    as [(k & E & L1 & L2 & B & M)|(E & H & Hi)]; rewrite ?rev_length in *.
  - left. exists k. split; [rewrite E, skipn_rev; reflexivity|]. repeat split; try assumption.
    + intros r Hr. specialize (B (length m - S r)%nat ltac:(lia)).
      apply rev_blank in B; [|lia].
      replace (length m - S (length m - S r))%nat with r in B by lia. exact B.
    + destruct M as [M|[M|M]]; [tauto|tauto|].
      destruct (Nat.lt_ge_cases k (length m)) as [Hk|Hk]; [|right; left; lia].
      right; right. intros B'. apply M. apply rev_blank; [exact Hk|exact B'].
  - right. split; [exact E|]. split; [exact H|]. intros I. apply Hi, inky_rev, I.
Qed.

(** ** Windows *)
Lemma rect_skipn m w h k : rect m w h -> rect (skipn k m) w (h - k).
Proof.
  intros [Hl Hf]. split; [rewrite skipn_length, Hl; reflexivity|].
  rewrite <- (firstn_skipn k m) in Hf. apply Forall_app in Hf. apply Hf.
Qed.
Lemma rect_firstn m w h k : rect m w h -> (k <= h)%nat -> rect (firstn k m) w k.
Proof.
  intros [Hl Hf] Hk. split; [rewrite firstn_length, Hl; lia|].
  rewrite <- (firstn_skipn k m) in Hf. apply Forall_app in Hf. apply Hf.
Qed.

Lemma nth_skipn {A} (l : list A) k i d : nth i (skipn k l) d = nth (k + i) l d.
Proof. revert k; induction l as [|a t IH]; intros [|k]; simpl; auto. destruct i; reflexivity. Qed.
Lemma nth_firstn {A} (l : list A) k i d : (i < k)%nat -> nth i (firstn k l) d = nth i l d.
Proof.
  revert k i; induction l as [|a t IH]; intros [|k] i H; simpl; auto; try lia.
  destruct i; [reflexivity|]. apply IH. lia.
Qed.

Lemma at_skipn m k r c : at_ (skipn k m) r c = at_ m (k + r) c.
Proof. unfold at_. rewrite nth_skipn. reflexivity. Qed.
Lemma at_firstn m k r c : (r < k)%nat -> at_ (firstn k m) r c = at_ m r c.
Proof. intros H. unfold at_. rewrite nth_firstn by exact H. reflexivity. Qed.

(** What is left after taking k1 rows off the top and k2 off the bottom *)
Lemma rows_window m w h k1 k2 lim1 lim2 :
  rect m w h -> trimmed lim1 m k1 -> trimmed_end lim2 (skipn k1 m) k2 ->
  let m' := firstn (length (skipn k1 m) - k2) (skipn k1 m) in
  rect m' w (h - k1 - k2) /\ (k1 + k2 <= h)%nat /\
  (forall r c, (r < h - k1 - k2)%nat -> at_ m' r c = at_ m (k1 + r) c) /\
  (forall r, row_blank m r \/ (k1 <= r < h - k2)%nat) /\
  (k1 = Z.to_nat lim1 \/ k1 = h \/ ~ row_blank m k1) /\
  (k2 = Z.to_nat lim2 \/ k1 + k2 = h \/ ~ row_blank m (h - S k2))%nat.
Proof.
  intros R (A1 & A2 & A3 & A4) (B1 & B2 & B3 & B4) m'.
  assert (Hl : length m = h) by apply R.
  pose proof (rect_skipn m w h k1 R) as Rs.
  assert (Ls : length (skipn k1 m) = (h - k1)%nat) by apply Rs.
  unfold m'. rewrite Ls in *.
  assert (Hb : forall r, row_blank (skipn k1 m) r <-> row_blank m (k1 + r)).
  { intros r. unfold row_blank. split; intros H c; specialize (H c); rewrite is_set_at in *;
      rewrite at_skipn in *; exact H. }
  repeat split.
  - rewrite firstn_length, Ls. lia.
  - apply (rect_firstn (skipn k1 m) w (h - k1)); [exact Rs|lia].
  - lia.
  - intros r c Hr. rewrite at_firstn by exact Hr. apply at_skipn.
  - intros r. destruct (Nat.lt_ge_cases r k1) as [H|H]; [left; apply A3; exact H|].
    destruct (Nat.lt_ge_cases r (h - k2)) as [H'|H']; [right; lia|]. left.
    destruct (Nat.lt_ge_cases r h) as [H''|H''].
    + specialize (B3 (r - k1)%nat ltac:(lia)). apply Hb in B3.
      replace (k1 + (r - k1))%nat with r in B3 by lia. exact B3.
    + intros c. rewrite is_set_at, (at_row_out m w h) by assumption. reflexivity.
  - rewrite Hl in A4. exact A4.
  - destruct B4 as [B4|[B4|B4]]; [tauto|right; left; lia|].
    destruct (Nat.lt_ge_cases (k1 + k2) h) as [H|H]; [|right; left; lia].
    right; right. intros B. apply B4. apply Hb.
    replace (k1 + (h - k1 - S k2))%nat with (h - S k2)%nat by lia. exact B.
Qed.

Lemma trim_spec l m w h : rect m w h -> nonneg m -> (0 < h)%nat -> N.of_nat h < 2 ^ 32 ->
  (exists m' y x w' h', trim_to l m = Ret (m', N.of_nat y) /\ nonneg m' /\
     window m m' w' h' x y /\ (y + h' <= h)%nat /\ (w' <= w)%nat /\
     (w <= w' + Z.to_nat (l_left l) + Z.to_nat (l_right l))%nat /\
     (w' = 0%nat \/ h <= h' + Z.to_nat (l_top l) + Z.to_nat (l_bottom l))%nat /\
     (m' <> [] -> tight (l_top l) (l_right l) (l_bottom l) (l_left l) m w h w' h' x y)) \/
  (trim_to l m = Panic /\ ~ inky m /\
     ((w < Z.to_nat (l_left l) + Z.to_nat (l_right l))%nat \/
      (h < Z.to_nat (l_top l) + Z.to_nat (l_bottom l))%nat)).
Proof.
  intros R Hn Hh H32. unfold trim_to, reverse_rows.
  destruct (transpose_ok m w h R Hn) as (t & -> & Nt & [[-> ->]|(Hm & Rt & At)]).
  { destruct R as [R _]. simpl in R. lia. }
  cbn [bind].
  assert (It : inky t -> inky m).
  { intros (c & r & Sx). exists r, c. rewrite is_set_at, <- At, <- is_set_at. exact Sx. }
  assert (Lt : length t = w) by apply Rt.
  destruct (trim_leading_spec (l_left l) t Nt) as [(k1 & -> & T1)|(-> & Lp & Hi)].
  2:{ right. cbn [bind]. split; [reflexivity|]. split; [|left; lia].
      intros (r & c & Sx). apply Hi. exists c, r.
      rewrite is_set_at, At, <- is_set_at. exact Sx. }
  cbn [bind].
  assert (Nt1 := nonneg_skipn k1 t Nt).
  assert (Blank1 : ~ inky (skipn k1 t) -> ~ inky m).
  { intros Hi (r & c & Sx).
    assert (St : is_set t c r = true) by (rewrite is_set_at, At, <- is_set_at; exact Sx).
    destruct T1 as (_ & _ & B & _).
    destruct (Nat.lt_ge_cases c k1) as [L|L]; [rewrite (B c L r) in St; discriminate|].
    apply Hi. exists (c - k1)%nat, r. rewrite is_set_at, at_skipn.
    replace (k1 + (c - k1))%nat with c by lia. exact St. }
  destruct (trim_trailing_spec (l_right l) (skipn k1 t) Nt1) as [(k2 & -> & T2)|(-> & Lp & Hi)].
  2:{ right. cbn [bind]. split; [reflexivity|]. split; [apply Blank1; exact Hi|].
      rewrite skipn_length, Lt in Lp. destruct T1 as (T11 & _). left. lia. }
  cbn [bind]. rewrite rev_involutive.
  destruct (rows_window t h w k1 k2 _ _ Rt T1 T2) as (Rw & Hk & Aw & Bw & Mw1 & Mw2).
  set (tw := firstn (length (skipn k1 t) - k2) (skipn k1 t)) in *.
  assert (Ntw : nonneg tw) by (unfold tw; apply nonneg_firstn; exact Nt1).
  assert (Cb : forall c, row_blank t c <-> col_blank m c).
  { intros c. unfold row_blank, col_blank. split; intros H r; specialize (H r);
      rewrite is_set_at in *; [rewrite <- At|rewrite At]; exact H. }
  destruct (transpose_ok tw h (w - k1 - k2) Rw Ntw) as (u & -> & Nu & [[Etw ->]|(Htw & Ru & Au)]).
  { (* everything trimmed away *)
    cbn [bind trim_leading_empty_rows length rev].
    left. exists [], O, O, O, O. split; [reflexivity|]. split; [constructor|].
    assert (Hz : (w - k1 - k2 = 0)%nat) by (destruct Rw as [Rw _]; rewrite Etw in Rw; simpl in Rw; lia).
    split.
    2:{ destruct T1 as (T11 & _). destruct T2 as (T21 & _).
        repeat (split; [lia|]). intros H; exfalso; apply H; reflexivity. }
    split; [split; [reflexivity|constructor]|intros; lia|].
    intros r c Sx. exfalso. destruct (Bw c) as [B|B]; [|lia].
    apply Cb in B. rewrite (B r) in Sx. discriminate. }
  cbn [bind].
  set (w' := (w - k1 - k2)%nat) in *.
  assert (Lw : (0 < w')%nat).
  { destruct Rw as [Rw _]. destruct w'; [|lia]. destruct tw; [contradiction|discriminate]. }
  assert (Aum : forall r c, (c < w')%nat -> at_ u r c = at_ m r (k1 + c)).
  { intros r c Hc. rewrite Au, Aw by exact Hc. apply At. }
  assert (Rb : forall r, row_blank u r <-> row_blank m r).
  { intros r. split; intros B c.
    - rewrite is_set_at. destruct (Bw c) as [Bc|Bc].
      + apply Cb in Bc. exact (Bc r).
      + specialize (B (c - k1)%nat). rewrite is_set_at, Aum in B by (unfold w'; lia).
        replace (k1 + (c - k1))%nat with c in B by lia. exact B.
    - rewrite is_set_at. destruct (Nat.lt_ge_cases c w') as [L|L].
      + rewrite Aum by exact L. exact (B _).
      + rewrite (at_col_out u w' h) by assumption. reflexivity. }
  assert (Iu : ~ inky u -> ~ inky m).
  { intros Hi (r & c & Sx). apply Hi. destruct (Bw c) as [Bc|Bc].
    - apply Cb in Bc. rewrite (Bc r) in Sx. discriminate.
    - exists r, (c - k1)%nat. rewrite is_set_at, Aum by (unfold w'; lia).
      replace (k1 + (c - k1))%nat with c by lia. exact Sx. }
  assert (Lu : length u = h) by apply Ru.
  destruct (trim_leading_spec (l_top l) u Nu) as [(k3 & -> & T3)|(-> & Lp & Hi)].
  2:{ right. cbn [bind]. split; [reflexivity|]. split; [apply Iu; exact Hi|right; lia]. }
  cbn [bind].
  assert (Hk3 : (k3 <= h)%nat) by (destruct T3 as (_ & T3 & _); lia).
  rewrite skipn_length, Lu.
  replace (h - (h - k3))%nat with k3 by lia.
  assert (Nu3 := nonneg_skipn k3 u Nu).
  destruct (trim_trailing_spec (l_bottom l) (skipn k3 u) Nu3) as [(k4 & -> & T4)|(-> & Lp & Hi)].
  2:{ right. cbn [bind]. split; [reflexivity|]. rewrite skipn_length, Lu in Lp.
      split; [|right; destruct T3 as (T31 & _); lia].
      apply Iu. intros (r & c & Sx).
      destruct T3 as (_ & _ & B & _).
      destruct (Nat.lt_ge_cases r k3) as [L|L]; [rewrite (B r L c) in Sx; discriminate|].
      apply Hi. exists (r - k3)%nat, c. rewrite is_set_at, at_skipn.
      replace (k3 + (r - k3))%nat with r by lia. exact Sx. }
  cbn [bind]. rewrite rev_involutive.
  rewrite w32_small by (change (2 ^ 32) with 4294967296 in *; lia).
  destruct (rows_window u w' h k3 k4 _ _ Ru T3 T4) as (Rf & Hkf & Af & Bf & Mf1 & Mf2).
  set (m' := firstn (length (skipn k3 u) - k4) (skipn k3 u)) in *.
  left. exists m', k3, k1, w', (h - k3 - k4)%nat. split; [reflexivity|].
  split; [unfold m'; apply nonneg_firstn; exact Nu3|].
  destruct T1 as (T11 & T12 & _ & _). destruct T2 as (T21 & T22 & _ & _).
  destruct T3 as (T31 & _ & _ & _). destruct T4 as (T41 & _ & _ & _).
  split; [split|].
  - exact Rf.
  - intros r c Hr Hc. rewrite !is_set_at, Af, Aum by assumption. reflexivity.
  - intros r c Sx. split.
    + destruct (Bf r) as [B|B]; [|lia]. apply Rb in B. rewrite (B c) in Sx. discriminate.
    + destruct (Bw c) as [B|B]; [|unfold w'; lia]. apply Cb in B. rewrite (B r) in Sx. discriminate.
  - repeat (split; [unfold w'; lia|]). intros Hm'.
    assert (Lh : (0 < h - k3 - k4)%nat).
    { destruct Rf as [Rf _]. destruct (h - k3 - k4)%nat; [|lia]. destruct m'; [contradiction|discriminate]. }
    split; unfold w'.
    + lia.
    + split; [lia|]. destruct Mw1 as [M|[M|M]]; [left; exact M|lia|]. right. rewrite <- Cb. exact M.
    + split; [lia|]. destruct Mw2 as [M|[M|M]]; [left; lia|lia|]. right. rewrite <- Cb.
      replace (k1 + (w - k1 - k2) - 1)%nat with (w - S k2)%nat by lia. exact M.
    + split; [lia|]. destruct Mf1 as [M|[M|M]]; [left; exact M|lia|]. right. rewrite <- Rb. exact M.
    + split; [lia|]. destruct Mf2 as [M|[M|M]]; [left; lia|lia|]. right. rewrite <- Rb.
      replace (k3 + (h - k3 - k4) - 1)%nat with (h - S k4)%nat by lia. exact M.
Qed.
