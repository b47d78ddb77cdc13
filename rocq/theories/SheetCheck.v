(** * A fast check that glyph records are the trimmed and packed cells of a sheet *)
From Coq Require Import ZArith Permutation Sorted.
From Verif Require Import PrimFacts Str M3Hash FontDefs SpecPaint SpecCodegen SpecSheet Codegen.
From Verif Require Import SortProofs PackProofs TrimProofs CgIndex CgFont CgGenerate.

(** ** Concatenated bit strings *)
Definition horner (b : N) (l : list N) : N := fold_left (fun a v => N.lor (N.shiftl a b) v) l 0.

Lemma horner_snoc b l v : horner b (l ++ [v]) = N.lor (N.shiftl (horner b l) b) v.
Proof. unfold horner. rewrite fold_left_app. reflexivity. Qed.

Lemma horner_bit b l : Forall (fun v => v < 2 ^ b) l -> forall i j, (i < length l)%nat -> j < b ->
  N.testbit (horner b l) (b * N.of_nat (length l - 1 - i) + j) = N.testbit (nth i l 0) j.
Proof.
  induction l as [|v l IH] using rev_ind; intros F i j Li Lj; [simpl in Li; lia|].
  apply Forall_app in F. destruct F as [F Fv]. inversion Fv as [|x y Hv _]; subst.
  rewrite horner_snoc, N.lor_spec. rewrite app_length in *. cbn [length] in *.
  destruct (Nat.eq_dec i (length l)) as [->|Hn].
  - replace (length l + 1 - 1 - length l)%nat with 0%nat by lia. rewrite N.mul_0_r, N.add_0_l.
    rewrite N.shiftl_spec_low by exact Lj. rewrite app_nth2, Nat.sub_diag by lia. reflexivity.
  - replace (length l + 1 - 1 - i)%nat with (S (length l - 1 - i))%nat by lia.
    rewrite Nat2N.inj_succ.
    rewrite N.shiftl_spec_high' by nia.
    replace (b * N.succ (N.of_nat (length l - 1 - i)) + j - b)
      with (b * N.of_nat (length l - 1 - i) + j) by nia.
    rewrite IH by (try assumption; lia). rewrite app_nth1 by lia.
    rewrite (testbit_high v b) by (try exact Hv; nia). apply orb_false_r.
Qed.

(** ** One glyph *)
Definition or_rows (rows : list N) : N := fold_right N.lor 0 rows.

Lemma or_rows_bit rows c : N.testbit (or_rows rows) c = true <-> exists r, N.testbit (nth r rows 0) c = true.
Proof.
  induction rows as [|v t IH]; cbn [or_rows fold_right].
  - rewrite N.bits_0. split; [discriminate|]. intros (r & H). destruct r; simpl in H; rewrite N.bits_0 in H; discriminate.
  - rewrite N.lor_spec. fold (or_rows t). rewrite orb_true_iff, IH. split.
    + intros [H|(r & H)]; [exists O; exact H|exists (S r); exact H].
    + intros ([|r] & H); [left; exact H|right; exists r; exact H].
Qed.

(** Zero bits at the low end, at most fuel *)
Fixpoint low_zeros (fuel : nat) (n : N) : nat :=
  match fuel with
  | O => O
  | S k => if N.odd n then O else S (low_zeros k (N.div2 n))
  end.

(** x, w: columns trimmed at the left and kept; y, h: rows *)
Definition cut_okb (size top right bottom left : nat) (rows : list N) (ink : N) (x w y h : nat) : bool :=
  ((1 <=? w)%nat && (1 <=? h)%nat && (x + w <=? size)%nat && (y + h <=? size)%nat)
  && ((x <=? left)%nat && ((x =? left)%nat || N.testbit ink (N.of_nat x)))
  && (let rt := (size - x - w)%nat in
      (rt <=? right)%nat && ((rt =? right)%nat || N.testbit ink (N.of_nat (x + w - 1))))
  && ((y <=? top)%nat && ((y =? top)%nat || negb (nth y rows 0 =? 0)))
  && (let bt := (size - y - h)%nat in
      (bt <=? bottom)%nat && ((bt =? bottom)%nat || negb (nth (y + h - 1) rows 0 =? 0)))
  && (ink =? N.shiftl (N.shiftr ink (N.of_nat x)) (N.of_nat x))
  && (N.shiftr ink (N.of_nat (x + w)) =? 0)
  && forallb (N.eqb 0) (firstn y rows)
  && forallb (N.eqb 0) (skipn (y + h) rows).

(** the pixels, packed *)
Definition pack_okb (rows : list N) (x w y h : nat) (ws : list N) : bool :=
  let k := N.of_nat w * N.of_nat h in
  let n := (k + 31) / 32 in
  (N.of_nat (length ws) =? n)
  && forallb (fun v => v <? 2 ^ 32) ws
  && (horner 32 ws =?
      N.shiftl (horner (N.of_nat w) (map (fun v => N.shiftr v (N.of_nat x)) (firstn h (skipn y rows)))) (32 * n - k)).

(** the record hdr :: ws *)
Definition glyph_okb (size : nat) (l : limits) (rows : list N) (hdr : N) (ws : list N) : bool :=
  let w := N.shiftr hdr 16 in
  let h := N.land (N.shiftr hdr 8) 255 in
  let y := N.land hdr 255 in
  let left := Z.to_nat (l_left l) in
  let right := Z.to_nat (l_right l) in
  let top := Z.to_nat (l_top l) in
  let bottom := Z.to_nat (l_bottom l) in
  let ink := or_rows rows in
  let x := low_zeros left ink in
  (w <? 256) && (hdr =? w * 65536 + h * 256 + y)
  && (negb (ink =? 0) || ((left + right <? size)%nat && (top + bottom <? size)%nat))
  && cut_okb size top right bottom left rows ink x (N.to_nat w) (N.to_nat y) (N.to_nat h)
  && pack_okb rows x (N.to_nat w) (N.to_nat y) (N.to_nat h) ws.

(** *** Trimming has only one result *)
Lemma tight_unique top right bottom left m w h m1 w1 h1 x1 y1 w2 h2 x2 y2 :
  rect m w h -> window m m1 w1 h1 x1 y1 -> tight top right bottom left m w h w1 h1 x1 y1 ->
  (forall r c, is_set m r c = true -> (y2 <= r < y2 + h2)%nat /\ (x2 <= c < x2 + w2)%nat) ->
  tight top right bottom left m w h w2 h2 x2 y2 ->
  (0 < w1)%nat -> (0 < h1)%nat -> (0 < w2)%nat -> (0 < h2)%nat ->
  w1 = w2 /\ h1 = h2 /\ x1 = x2 /\ y1 = y2.
Proof.
  intros R [_ _ O1] [F1 L1 R1 T1 B1] O2 [F2 L2 R2 T2 B2] Pw1 Ph1 Pw2 Ph2.
  assert (NC : forall c, ~ col_blank m c -> exists r, is_set m r c = true).
  { intros c H. destruct (existsb (fun r => is_set m r c) (seq 0 h)) eqn:E.
    - apply existsb_exists in E. destruct E as (r & _ & E). exists r; exact E.
    - exfalso. apply H. intros r. destruct (is_set m r c) eqn:S; [|reflexivity].
      destruct (set_inside m w h r c R S) as [Hr _].
      assert (existsb (fun r => is_set m r c) (seq 0 h) = true).
      { apply existsb_exists. exists r. split; [apply in_seq; lia|exact S]. }
      congruence. }
  assert (NR : forall r, ~ row_blank m r -> exists c, is_set m r c = true).
  { intros r H. destruct (existsb (fun c => is_set m r c) (seq 0 w)) eqn:E.
    - apply existsb_exists in E. destruct E as (c & _ & E). exists c; exact E.
    - exfalso. apply H. intros c. destruct (is_set m r c) eqn:S; [|reflexivity].
      destruct (set_inside m w h r c R S) as [_ Hc].
      assert (existsb (fun c => is_set m r c) (seq 0 w) = true).
      { apply existsb_exists. exists c. split; [apply in_seq; lia|exact S]. }
      congruence. }
  assert (x1 = x2).
  { destruct (Nat.lt_trichotomy x1 x2) as [L|[L|L]]; [|exact L|].
    - destruct L1 as [_ [L1|L1]]; [lia|]. destruct (NC _ L1) as (r & S). apply O2 in S. lia.
    - destruct L2 as [_ [L2|L2]]; [lia|]. destruct (NC _ L2) as (r & S). apply O1 in S. lia. }
  assert (y1 = y2).
  { destruct (Nat.lt_trichotomy y1 y2) as [L|[L|L]]; [|exact L|].
    - destruct T1 as [_ [T1|T1]]; [lia|]. destruct (NR _ T1) as (c & S). apply O2 in S. lia.
    - destruct T2 as [_ [T2|T2]]; [lia|]. destruct (NR _ T2) as (c & S). apply O1 in S. lia. }
  assert (w1 = w2).
  { destruct (Nat.lt_trichotomy w1 w2) as [L|[L|L]]; [|exact L|].
    - destruct R2 as [_ [R2|R2]]; [lia|]. destruct (NC _ R2) as (r & S). apply O1 in S. lia.
    - destruct R1 as [_ [R1|R1]]; [lia|]. destruct (NC _ R1) as (r & S). apply O2 in S. lia. }
  assert (h1 = h2).
  { destruct (Nat.lt_trichotomy h1 h2) as [L|[L|L]]; [|exact L|].
    - destruct B2 as [_ [B2|B2]]; [lia|]. destruct (NR _ B2) as (c & S). apply O1 in S. lia.
    - destruct B1 as [_ [B1|B1]]; [lia|]. destruct (NR _ B1) as (c & S). apply O2 in S. lia. }
  auto.
Qed.

(** *** Packing has only one result *)
Lemma packed_unique m w h hdr a b : packed_matrix m w h hdr a -> packed_matrix m w h hdr b -> a = b.
Proof.
  intros [Ha La Ua Ba Pa] [Hb Lb Ub Bb Pb].
  destruct a as [|a0 a]; [simpl in La; lia|]. destruct b as [|b0 b]; [simpl in Lb; lia|].
  cbn [nth length tl] in *. rewrite Nat2N.inj_succ in La, Lb.
  set (k := N.of_nat w * N.of_nat h) in *. f_equal; [congruence|].
  assert (Lab : length a = length b) by lia.
  apply (nth_ext _ _ 0 0); [exact Lab|]. intros i Li. assert (Li' : (i < length b)%nat) by congruence.
  rewrite Forall_forall in Ua, Ub.
  pose proof (Ua (nth i a 0) (nth_In _ _ Li)) as Va.
  pose proof (Ub (nth i b 0) (nth_In b 0 Li')) as Vb.
  apply N.bits_inj. intros j. destruct (N.ltb_spec j 32) as [Lj|Lj].
  - set (n := 32 * N.of_nat i + (31 - j)).
    assert (En : n / 32 = N.of_nat i) by (unfold n; clear - Lj; lia).
    assert (Em : 31 - n mod 32 = j) by (unfold n; clear - Lj; lia).
    destruct (N.ltb_spec n k) as [Ln|Ln].
    + pose proof (Ba n Ln) as E1. pose proof (Bb n Ln) as E2. rewrite En, Em, Nat2N.id in E1, E2. congruence.
    + assert (Ln' : n / 32 < (k + 31) / 32) by (rewrite En; lia).
      pose proof (Pa n Ln Ln') as E1. pose proof (Pb n Ln Ln') as E2.
      rewrite En, Em, Nat2N.id in E1, E2. congruence.
  - rewrite !(testbit_high _ 32) by assumption. reflexivity.
Qed.

(** *** The check is sound *)
Section Glyph.
  Variables (m : matrix) (rows : list N) (size : nat) (l : limits).
  Hypothesis Hrect : rect m size size.
  Hypothesis Hnn : nonneg m.
  Hypothesis Hrows : length rows = size.
  Hypothesis Hbits : forall r c, is_set m r c = N.testbit (nth r rows 0) (N.of_nat c).

  Lemma ink_col c : N.testbit (or_rows rows) (N.of_nat c) = true <-> ~ col_blank m c.
  Proof.
    rewrite or_rows_bit. split.
    - intros (r & S) B. specialize (B r). rewrite Hbits in B. congruence.
    - intros H. destruct (N.testbit (or_rows rows) (N.of_nat c)) eqn:E; [apply or_rows_bit; exact E|].
      exfalso. apply H. intros r. rewrite Hbits. destruct (N.testbit (nth r rows 0) (N.of_nat c)) eqn:S; [|reflexivity].
      assert (N.testbit (or_rows rows) (N.of_nat c) = true) by (apply or_rows_bit; exists r; exact S). congruence.
  Qed.
  Lemma ink_row r : nth r rows 0 <> 0 -> ~ row_blank m r.
  Proof.
    intros H B. apply H. apply N.bits_inj. intros j. rewrite N.bits_0.
    specialize (B (N.to_nat j)). rewrite Hbits, N2Nat.id in B. exact B.
  Qed.

  Lemma cut_sound top right bottom left x w y h :
    cut_okb size (Z.to_nat top) (Z.to_nat right) (Z.to_nat bottom) (Z.to_nat left) rows (or_rows rows) x w y h = true ->
    (0 < w)%nat /\ (0 < h)%nat /\
    (forall r c, is_set m r c = true -> (y <= r < y + h)%nat /\ (x <= c < x + w)%nat) /\
    tight top right bottom left m size size w h x y.
  Proof.
    unfold cut_okb. cbv zeta. rewrite !andb_true_iff.
    intros [[[[[[[[C1 C2] C3] C4] C5] C6] C7] C8] C9].
    assert (Hcol : forall c, N.testbit (or_rows rows) (N.of_nat c) = true -> (x <= c < x + w)%nat).
    { intros c S. split.
      - apply N.eqb_eq in C6. rewrite C6 in S. destruct (Nat.le_gt_cases x c) as [L|L]; [exact L|].
        rewrite N.shiftl_spec_low in S by lia. discriminate.
      - destruct (Nat.lt_ge_cases c (x + w)) as [L|L]; [exact L|].
        apply N.eqb_eq in C7.
        assert (N.testbit (N.shiftr (or_rows rows) (N.of_nat (x + w))) (N.of_nat (c - (x + w))) = true).
        { rewrite N.shiftr_spec'. rewrite <- S. f_equal. lia. }
        rewrite C7, N.bits_0 in H. discriminate. }
    assert (Hrow : forall r c, is_set m r c = true -> (y <= r < y + h)%nat).
    { intros r c S. rewrite Hbits in S.
      rewrite forallb_forall in C8, C9.
      assert (Lr : (r < length rows)%nat).
      { destruct (Nat.lt_ge_cases r (length rows)) as [L|L]; [exact L|].
        rewrite nth_overflow, N.bits_0 in S by exact L. discriminate. }
      split.
      - destruct (Nat.le_gt_cases y r) as [L|L]; [exact L|]. exfalso.
        assert (I : In (nth r rows 0) (firstn y rows)).
        { rewrite <- (nth_firstn rows y r 0) by lia. apply nth_In. rewrite firstn_length. lia. }
        specialize (C8 _ I). apply N.eqb_eq in C8. rewrite <- C8, N.bits_0 in S. discriminate.
      - destruct (Nat.lt_ge_cases r (y + h)) as [L|L]; [exact L|]. exfalso.
        assert (I : In (nth r rows 0) (skipn (y + h) rows)).
        { replace r with ((y + h) + (r - (y + h)))%nat by lia. rewrite <- nth_skipn.
          apply nth_In. rewrite skipn_length. lia. }
        specialize (C9 _ I). apply N.eqb_eq in C9. rewrite <- C9, N.bits_0 in S. discriminate. }
    split; [lia|]. split; [lia|]. split.
    { intros r c S. split; [eapply Hrow; exact S|]. apply Hcol. apply or_rows_bit.
      exists r. rewrite <- Hbits. exact S. }
    destruct C2 as [C2 C2'], C3 as [C3 C3'], C4 as [C4 C4'], C5 as [C5 C5'].
    rewrite orb_true_iff in C2', C3', C4', C5'.
    split; (split; [lia|]).
    - lia.
    - destruct C2' as [C2'|C2']; [left; lia|right; apply ink_col; exact C2'].
    - destruct C3' as [C3'|C3']; [left; lia|right; apply ink_col; exact C3'].
    - destruct C4' as [C4'|C4']; [left; lia|right; apply ink_row; lia].
    - destruct C5' as [C5'|C5']; [left; lia|right; apply ink_row; lia].
  Qed.

  Lemma shiftr_bound v a b : N.shiftr v (a + b) = 0 -> N.shiftr v a < 2 ^ b.
  Proof.
    rewrite <- N.shiftr_shiftr. generalize (N.shiftr v a). intros u H.
    rewrite N.shiftr_div_pow2 in H. apply N.div_small_iff in H; [exact H|]. apply N.pow_nonzero. discriminate.
  Qed.

  Lemma pack_sound m' x w y h hdr ws :
    window m m' w h x y -> (0 < w)%nat -> (0 < h)%nat -> (y + h <= size)%nat ->
    N.shiftr (or_rows rows) (N.of_nat (x + w)) = 0 ->
    pack_okb rows x w y h ws = true -> packed_matrix m' w h hdr (hdr :: ws).
  Proof.
    intros W Pw Ph Fit Hr. unfold pack_okb. cbv zeta.
    set (k := N.of_nat w * N.of_nat h). set (nw := (k + 31) / 32).
    set (g := map (fun v => N.shiftr v (N.of_nat x)) (firstn h (skipn y rows))).
    rewrite !andb_true_iff. intros [[P1 P2] P3].
    apply N.eqb_eq in P1. apply N.eqb_eq in P3.
    assert (F32 : Forall (fun v => v < 2 ^ 32) ws).
    { apply Forall_forall. intros v I. rewrite forallb_forall in P2. specialize (P2 v I). apply N.ltb_lt. exact P2. }
    assert (Lg : length g = h).
    { unfold g. rewrite map_length, firstn_length, skipn_length. lia. }
    assert (Fg : Forall (fun v => v < 2 ^ N.of_nat w) g).
    { unfold g. rewrite Forall_map. apply Forall_forall. intros v I.
      apply shiftr_bound. apply N.bits_inj. intros j. rewrite N.bits_0, N.shiftr_spec'.
      destruct (N.testbit v (j + (N.of_nat x + N.of_nat w))) eqn:S; [|reflexivity].
      assert (Iv : In v rows).
      { rewrite <- (firstn_skipn y rows). apply in_or_app. right.
        rewrite <- (firstn_skipn h (skipn y rows)). apply in_or_app. left. exact I. }
      apply (In_nth _ _ 0) in Iv. destruct Iv as (r & _ & <-).
      assert (T : N.testbit (N.shiftr (or_rows rows) (N.of_nat (x + w))) j = true).
      { rewrite N.shiftr_spec'. apply or_rows_bit. exists r. rewrite <- S. f_equal. lia. }
      rewrite Hr, N.bits_0 in T. discriminate. }
    assert (Eg : forall r c, (r < h)%nat -> (c < w)%nat -> N.testbit (nth r g 0) (N.of_nat c) = is_set m' r c).
    { intros r c Lr Lc. rewrite (win_inside _ _ _ _ _ _ W) by assumption. rewrite Hbits.
      unfold g. rewrite (nth_indep _ 0 (N.shiftr 0 (N.of_nat x))) by (rewrite map_length, firstn_length, skipn_length; lia).
      rewrite (map_nth (fun v => N.shiftr v (N.of_nat x))). rewrite nth_firstn by exact Lr. rewrite nth_skipn.
      rewrite N.shiftr_spec'. f_equal. lia. }
    assert (Ew : forall n, n < 32 * nw -> N.testbit (nth (N.to_nat (n / 32)) ws 0) (31 - n mod 32) =
                 N.testbit (horner 32 ws) (32 * nw - 1 - n)).
    { intros n Ln. rewrite <- (horner_bit 32 ws F32) by lia. f_equal. lia. }
    assert (Hk : k <= 32 * nw) by (unfold nw; lia).
    split; cbn [nth tl length].
    - reflexivity.
    - fold k nw. rewrite Nat2N.inj_succ. lia.
    - exact F32.
    - fold k. intros n Ln. rewrite Ew by lia. rewrite P3.
      rewrite N.shiftl_spec_high' by lia.
      replace (32 * nw - 1 - n - (32 * nw - k)) with (k - 1 - n) by lia.
      set (w' := N.of_nat w) in *. assert (Hw : 0 < w') by (unfold w'; lia).
      pose proof (N.div_mod n w' ltac:(lia)) as D. pose proof (N.mod_lt n w' ltac:(lia)) as Dm.
      set (q := n / w') in *. set (r := n mod w') in *.
      assert (Lq : q < N.of_nat h) by (unfold k in Ln; nia).
      replace (k - 1 - n) with (w' * N.of_nat (length g - 1 - N.to_nat q) + (w' - 1 - r)).
      + rewrite horner_bit by (try assumption; lia).
        unfold stream. fold q r. rewrite <- (Eg (N.to_nat q)) by lia. f_equal. lia.
      + rewrite Lg. replace (N.of_nat (h - 1 - N.to_nat q)) with (N.of_nat h - 1 - q) by lia.
        unfold k. fold w'. nia.
    - fold k nw. intros n Ln1 Ln2. rewrite Ew by lia. rewrite P3.
      apply N.shiftl_spec_low. lia.
  Qed.

  Lemma glyph_sound hdr ws : (0 < size < 256)%nat -> glyph_okb size l rows hdr ws = true ->
    exists m' y, trim_to l m = Ret (m', y) /\ convert_to_pattern m' y = Ret (hdr :: ws).
  Proof.
    intros Hs. unfold glyph_okb. cbv zeta. rewrite !andb_true_iff.
    set (w := N.shiftr hdr 16). set (h := N.land (N.shiftr hdr 8) 255). set (y := N.land hdr 255).
    set (x := low_zeros _ _). intros [[[[G1 G2] G3] G4] G5].
    assert (Gr : N.shiftr (or_rows rows) (N.of_nat (x + N.to_nat w)) = 0).
    { unfold cut_okb in G4. cbv zeta in G4. rewrite !andb_true_iff in G4. lia. }
    destruct (cut_sound _ _ _ _ _ _ _ _ G4) as (Pw & Ph & Out & T).
    destruct (trim_spec l m size size Hrect Hnn ltac:(lia)) as
      [(m' & y' & x' & w' & h' & E & Nm & W & L1 & L2 & L3 & L4 & Ti)|(_ & Hi & L)].
    { change (2 ^ 32) with 4294967296. lia. }
    2:{ exfalso. destruct (orb_prop _ _ G3) as [Gi|Gl]; [|lia].
        apply Hi. apply negb_true_iff, N.eqb_neq in Gi.
        assert (exists c, N.testbit (or_rows rows) c = true) as (c & Sc).
        { exists (N.log2 (or_rows rows)). apply N.bit_log2. exact Gi. }
        apply or_rows_bit in Sc. destruct Sc as (r & Sr). exists r, (N.to_nat c).
        rewrite Hbits, N2Nat.id. exact Sr. }
    assert (Hwh : (0 < w')%nat /\ (0 < h')%nat).
    { destruct (orb_prop _ _ G3) as [Gi|Gl]; [|lia].
      apply negb_true_iff, N.eqb_neq in Gi.
      pose proof (N.bit_log2 _ Gi) as Sc. apply or_rows_bit in Sc. destruct Sc as (r & Sr).
      assert (Ss : is_set m r (N.to_nat (N.log2 (or_rows rows))) = true) by (rewrite Hbits, N2Nat.id; exact Sr).
      apply (win_outside _ _ _ _ _ _ W) in Ss. lia. }
    assert (Hm' : m' <> []).
    { intros ->. destruct (win_rect _ _ _ _ _ _ W) as [R0 _]. simpl in R0. lia. }
    destruct (tight_unique _ _ _ _ _ _ _ _ _ _ _ _ _ _ _ _ Hrect W (Ti Hm') Out T) as (-> & -> & -> & ->); try lia.
    exists m', (N.of_nat (N.to_nat y)). split; [exact E|].
    assert (Hh : h < 256) by (unfold h; change 255 with (N.ones 8); rewrite N.land_ones; apply N.mod_lt; discriminate).
    assert (Hy : y < 256) by (unfold y; change 255 with (N.ones 8); rewrite N.land_ones; apply N.mod_lt; discriminate).
    destruct (convert_ok m' (N.to_nat w) (N.to_nat h) (N.of_nat (N.to_nat y))) as (words & Ew & P); try lia;
      try (change (2 ^ 32) with 4294967296; lia).
    { exact (win_rect _ _ _ _ _ _ W). }
    rewrite Ew. f_equal. rewrite !N2Nat.id in P.
    assert (Eh : pat_header w h y = hdr).
    { rewrite header_fields by lia. lia. }
    rewrite Eh in P.
    apply (packed_unique m' (N.to_nat w) (N.to_nat h) hdr); [exact P|].
    apply (pack_sound m' x (N.to_nat w) (N.to_nat y) (N.to_nat h)); try assumption; lia.
  Qed.
End Glyph.
