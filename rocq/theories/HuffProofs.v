(** * Numbers in bits, and decoding of Huffman codes *)
From Coq Require Import ZArith.
From Verif Require Import Prim PrimFacts Png SpecDeflate.

(** ** Numbers *)
Lemma pow2_S n : 2 ^ N.of_nat (S n) = 2 * 2 ^ N.of_nat n.
Proof. rewrite Nat2N.inj_succ, N.pow_succ_r'. reflexivity. Qed.
Lemma pow2_pos n : 0 < 2 ^ n.
Proof. apply N.neq_0_lt_0, N.pow_nonzero. discriminate. Qed.

Lemma odd_div2 v : (if N.odd v then N.succ_double (N.div2 v) else N.double (N.div2 v)) = v.
Proof. destruct v as [|[p|p|]]; reflexivity. Qed.
Lemma odd_succ_double v : N.odd (N.succ_double v) = true.
Proof. destruct v; reflexivity. Qed.
Lemma odd_double v : N.odd (N.double v) = false.
Proof. destruct v; reflexivity. Qed.
Lemma div2_lt v n : v < 2 * n -> N.div2 v < n.
Proof. intros L. rewrite N.div2_div. apply N.div_lt_upper_bound; lia. Qed.

Lemma lsb_length n : forall v, length (lsb_bits n v) = n.
Proof. induction n as [|n IH]; intros v; [reflexivity|]. cbn [lsb_bits length]. rewrite IH. reflexivity. Qed.
Lemma msb_length n v : length (msb_bits n v) = n.
Proof. induction n as [|n IH]; [reflexivity|]. cbn [msb_bits length]. rewrite IH. reflexivity. Qed.

Lemma take_bits_lsb n : forall v rest, v < 2 ^ N.of_nat n -> take_bits n (lsb_bits n v ++ rest) = Ret (v, rest).
Proof.
  induction n as [|n IH]; intros v rest L.
  - change (2 ^ N.of_nat 0) with 1 in L. replace v with 0 by lia. reflexivity.
  - rewrite pow2_S in L. cbn [lsb_bits app take_bits]. rewrite IH by (apply div2_lt, L).
    cbn [bind]. rewrite odd_div2. reflexivity.
Qed.
Lemma take_bits_inv n : forall bits v rest, take_bits n bits = Ret (v, rest) ->
  v < 2 ^ N.of_nat n /\ bits = lsb_bits n v ++ rest.
Proof.
  induction n as [|n IH]; intros bits v rest E.
  - injection E as <- <-. split; [reflexivity|]. reflexivity.
  - cbn [take_bits] in E. destruct bits as [|b t]; [discriminate|].
    destruct (take_bits n t) as [[u r]|] eqn:Et; [|discriminate]. cbn [bind] in E. injection E as <- <-.
    apply IH in Et. destruct Et as [L ->]. rewrite pow2_S. cbn [lsb_bits app]. destruct b.
    + rewrite odd_succ_double, N.div2_succ_double. split; [rewrite N.succ_double_spec; lia|reflexivity].
    + rewrite odd_double, N.div2_double. split; [rewrite N.double_spec; lia|reflexivity].
Qed.

(** The first of n+1 bits, most significant first *)
Lemma msb_mod n : forall v m, (n <= m)%nat -> msb_bits n (v mod 2 ^ N.of_nat m) = msb_bits n v.
Proof.
  induction n as [|n IH]; intros v m L; [reflexivity|]. cbn [msb_bits].
  rewrite IH by lia. rewrite N.mod_pow2_bits_low by lia. reflexivity.
Qed.
Lemma top_bit n v : v < 2 ^ N.of_nat (S n) ->
  v = N.b2n (N.testbit v (N.of_nat n)) * 2 ^ N.of_nat n + v mod 2 ^ N.of_nat n.
Proof.
  intros L. rewrite pow2_S in L. pose proof (pow2_pos (N.of_nat n)) as P.
  rewrite N.testbit_spec'.
  pose proof (N.div_mod v (2 ^ N.of_nat n) ltac:(lia)) as D.
  assert (Q : v / 2 ^ N.of_nat n < 2) by (apply N.div_lt_upper_bound; lia).
  set (q := v / 2 ^ N.of_nat n) in *. rewrite (N.mod_small q 2) by exact Q. lia.
Qed.
Lemma msb_cons n (b : bool) v : v < 2 ^ N.of_nat n ->
  b :: msb_bits n v = msb_bits (S n) (N.b2n b * 2 ^ N.of_nat n + v).
Proof.
  intros L. cbn [msb_bits]. f_equal.
  - rewrite N.testbit_eqb. rewrite N.div_add_l by (pose proof (pow2_pos (N.of_nat n)); lia).
    rewrite N.div_small by exact L. destruct b; reflexivity.
  - rewrite <- (msb_mod n (N.b2n b * _ + v) n) by lia.
    rewrite N.add_comm, N.mod_add by (pose proof (pow2_pos (N.of_nat n)); lia).
    rewrite N.mod_small by exact L. reflexivity.
Qed.

(** ** Decoding *)

(** The first code of j+1 bits, of the groups from here on *)
Fixpoint lead (j : nat) (gs : list (list N)) : N :=
  match j, gs with
  | S j', g :: gs' => N.of_nat (length g) * 2 ^ N.of_nat j + lead j' gs'
  | _, _ => 0
  end.

Lemma decode_complete j : forall gs e v r s g rest,
  nth_error gs j = Some g -> nth_error g r = Some s -> v < 2 ^ N.of_nat (S j) ->
  N.of_nat e * 2 ^ N.of_nat (S j) + v = lead j gs + N.of_nat r ->
  decode_symbol gs e (msb_bits (S j) v ++ rest) = Ret (s, rest).
Proof.
  induction j as [|j IH]; intros [|g0 gs] e v r s g rest Hg Hs Hv E; try discriminate.
  - cbn [nth_error] in Hg. injection Hg as ->. cbn [lead] in E.
    change (2 ^ N.of_nat 1) with 2 in *. cbn [msb_bits app decode_symbol].
    assert (B : (if N.testbit v (N.of_nat 0) then 1 else 0)%nat = N.to_nat v).
    { change (N.of_nat 0) with 0. destruct v as [|[p|p|]]; try reflexivity; lia. }
    rewrite B. replace (N.to_nat v + (e + e))%nat with r by lia. rewrite Hs. reflexivity.
  - cbn [nth_error] in Hg. cbn [lead] in E. pose proof (top_bit (S j) v Hv) as T.
    set (b := N.testbit v (N.of_nat (S j))) in *.
    set (v' := v mod 2 ^ N.of_nat (S j)) in *.
    assert (Lv : v' < 2 ^ N.of_nat (S j)) by (apply N.mod_lt; pose proof (pow2_pos (N.of_nat (S j))); lia).
    change (msb_bits (S (S j)) v) with (b :: msb_bits (S j) v).
    rewrite <- (msb_mod (S j) v (S j)) by lia. fold v'. cbn [app decode_symbol].
    set (e' := ((if b then 1 else 0) + (e + e))%nat).
    assert (Ee : N.of_nat e' = N.b2n b + 2 * N.of_nat e) by (unfold e'; destruct b; cbn [N.b2n]; lia).
    rewrite (pow2_S (S j)) in E.
    assert (E2 : N.of_nat e' * 2 ^ N.of_nat (S j) + v'
                 = N.of_nat (length g0) * 2 ^ N.of_nat (S j) + (lead j gs + N.of_nat r)) by nia.
    assert (G : (length g0 <= e')%nat) by nia.
    rewrite (proj2 (nth_error_None g0 e')) by exact G.
    apply (IH gs _ v' r s g rest Hg Hs Lv).
    rewrite Nat2N.inj_sub, N.mul_sub_distr_r. nia.
Qed.
Lemma decode_sound gs : forall e bits s rest, decode_symbol gs e bits = Ret (s, rest) ->
  exists j g r v, nth_error gs j = Some g /\ nth_error g r = Some s /\ v < 2 ^ N.of_nat (S j) /\
    N.of_nat e * 2 ^ N.of_nat (S j) + v = lead j gs + N.of_nat r /\ bits = msb_bits (S j) v ++ rest.
Proof.
  induction gs as [|g gs IH]; intros e [|b t] s rest E; try discriminate.
  cbn [decode_symbol] in E. set (e' := ((if b then 1 else 0) + (e + e))%nat) in *.
  destruct (nth_error g e') as [s'|] eqn:Es.
  - injection E as -> ->. exists 0%nat, g, e', (N.b2n b). cbn [lead].
    change (2 ^ N.of_nat 1) with 2. repeat split; try assumption.
    + destruct b; reflexivity.
    + unfold e'. destruct b; cbn [N.b2n]; lia.
    + destruct b; reflexivity.
  - apply nth_error_None in Es. apply IH in E. destruct E as (j & g' & r & v & H1 & H2 & H3 & H4 & ->).
    exists (S j), g', r, (N.b2n b * 2 ^ N.of_nat (S j) + v). cbn [nth_error lead].
    split; [exact H1|]. split; [exact H2|]. rewrite (pow2_S (S j)). split; [destruct b; cbn [N.b2n]; nia|].
    split.
    + rewrite Nat2N.inj_sub, N.mul_sub_distr_r in H4.
      assert (Ee : N.of_nat e' = N.b2n b + 2 * N.of_nat e) by (unfold e'; destruct b; cbn [N.b2n]; lia).
      nia.
    + rewrite <- msb_cons by exact H3. reflexivity.
Qed.

(** ** The groups of a code *)
Lemma symbols_nth len lens : forall i r s,
  nth_error (symbols_with len i lens) r = Some s <->
  exists k, s = i + N.of_nat k /\ nth_error lens k = Some len /\ r = count_occ N.eq_dec (firstn k lens) len.
Proof.
  induction lens as [|l t IH]; intros i r s; cbn [symbols_with].
  - split; [destruct r; discriminate|]. intros (k & _ & E & _). destruct k; discriminate.
  - destruct (N.eqb_spec l len) as [->|Ne].
    + destruct r as [|r]; cbn [nth_error].
      * split.
        -- intros E. injection E as <-. exists 0%nat. cbn. repeat split; lia.
        -- intros (k & -> & E & R). destruct k as [|k]; [f_equal; lia|].
           cbn [firstn count_occ] in R. destruct (N.eq_dec len len); [discriminate|contradiction].
      * rewrite IH. split; intros (k & E1 & E2 & E3).
        -- exists (S k). cbn [nth_error firstn count_occ]. destruct (N.eq_dec len len); [|contradiction].
           repeat split; [lia|exact E2|lia].
        -- destruct k as [|k]; [discriminate|]. exists k. cbn [nth_error firstn count_occ] in *.
           destruct (N.eq_dec len len); [|contradiction]. repeat split; [lia|exact E2|lia].
    + rewrite IH. split; intros (k & E1 & E2 & E3).
      * exists (S k). cbn [nth_error firstn count_occ]. destruct (N.eq_dec l len); [contradiction|].
        repeat split; [lia|exact E2|exact E3].
      * destruct k as [|k]; [injection E2 as ->; contradiction|]. exists k. cbn [nth_error firstn count_occ] in *.
        destruct (N.eq_dec l len); [contradiction|]. repeat split; [lia|exact E2|exact E3].
Qed.
Lemma symbols_length len lens : forall i, length (symbols_with len i lens) = count_occ N.eq_dec lens len.
Proof.
  induction lens as [|l t IH]; intros i; [reflexivity|]. cbn [symbols_with count_occ].
  destruct (N.eqb_spec l len), (N.eq_dec l len); try contradiction; cbn [length]; rewrite IH; reflexivity.
Qed.

Definition levels (a n : nat) (lens : list N) : list (list N) :=
  map (fun k => symbols_with (N.of_nat k) 0 lens) (seq a n).
Lemma groups_levels lens : groups lens = levels 1 15 lens.
Proof. reflexivity. Qed.

Fixpoint leadn (j : nat) (cs : list nat) : N :=
  match j, cs with
  | S j', c :: cs' => N.of_nat c * 2 ^ N.of_nat j + leadn j' cs'
  | _, _ => 0
  end.
Lemma lead_leadn j : forall gs, lead j gs = leadn j (map (@length N) gs).
Proof. induction j as [|j IH]; intros [|g gs]; try reflexivity. cbn [lead leadn map]. rewrite IH. reflexivity. Qed.
Lemma leadn_add (f g : nat -> nat) : forall j l, leadn j (map (fun k => f k + g k)%nat l) = leadn j (map f l) + leadn j (map g l).
Proof.
  induction j as [|j IH]; intros [|k l]; try reflexivity. cbn [leadn map]. rewrite IH, Nat2N.inj_add. lia.
Qed.
Lemma leadn_zero : forall j l, leadn j (map (fun _ : nat => 0%nat) l) = 0.
Proof. induction j as [|j IH]; intros [|k l]; try reflexivity. cbn [leadn map]. rewrite IH. lia. Qed.
Lemma leadn_one k : forall j a n, (j < n)%nat ->
  leadn j (map (fun i => if N.eq_dec k (N.of_nat i) then 1 else 0)%nat (seq a n))
  = if (N.of_nat a <=? k) && (k <? N.of_nat (a + j)) then 2 ^ (N.of_nat (a + j) - k) else 0.
Proof.
  induction j as [|j IH]; intros a n L; (destruct n as [|n]; [lia|]); cbn [seq map leadn].
  - rewrite Nat.add_0_r. destruct (N.leb_spec (N.of_nat a) k), (N.ltb_spec k (N.of_nat a)); try lia; reflexivity.
  - rewrite IH by lia. replace (S a + j)%nat with (a + S j)%nat by lia.
    destruct (N.eq_dec k (N.of_nat a)) as [->|Ne].
    + replace (N.of_nat (S a) <=? N.of_nat a) with false by (symmetry; apply N.leb_gt; lia).
      rewrite N.leb_refl. replace (N.of_nat a <? N.of_nat (a + S j)) with true by (symmetry; apply N.ltb_lt; lia).
      cbn [andb]. replace (N.of_nat (a + S j) - N.of_nat a) with (N.of_nat (S j)) by lia. lia.
    + replace (N.of_nat (S a) <=? k) with (N.of_nat a <=? k); [cbn; lia|].
      destruct (N.leb_spec (N.of_nat a) k), (N.leb_spec (N.of_nat (S a)) k); try reflexivity; lia.
Qed.
Lemma lead_shorter j lens : (j < 15)%nat -> lead j (groups lens) = shorter (N.of_nat (S j)) lens.
Proof.
  intros L. rewrite lead_leadn, groups_levels. unfold levels. rewrite map_map.
  erewrite map_ext; [|intros k; apply symbols_length].
  induction lens as [|l t IH].
  - cbn [count_occ shorter]. apply leadn_zero.
  - cbn [shorter]. rewrite <- IH.
    replace (if (0 <? l) && (l <? N.of_nat (S j)) then 2 ^ (N.of_nat (S j) - l) else 0)
      with (leadn j (map (fun i => if N.eq_dec l (N.of_nat i) then 1 else 0)%nat (seq 1 15))).
    2:{ rewrite (leadn_one l j 1 15 L). change (1 + j)%nat with (S j). change (N.of_nat 1) with 1.
        replace (1 <=? l) with (0 <? l); [reflexivity|]. destruct (N.leb_spec 1 l), (N.ltb_spec 0 l); try reflexivity; lia. }
    rewrite <- leadn_add. f_equal. apply map_ext. intros k. cbn [count_occ].
    destruct (N.eq_dec l (N.of_nat k)); lia.
Qed.

(** ** Codes fit into their lengths *)
Lemma weight_split l lens : 0 < l -> l <= 15 ->
  shorter l lens * 2 ^ (15 - l) + N.of_nat (count_occ N.eq_dec lens l) * 2 ^ (15 - l) <= weight lens.
Proof.
  intros L0 L. induction lens as [|k t IH]; [reflexivity|]. cbn [shorter count_occ weight].
  destruct (N.eq_dec k l) as [->|Ne].
  - rewrite N.ltb_irrefl, andb_false_r. replace (l =? 0) with false by (symmetry; apply N.eqb_neq; lia). nia.
  - destruct (N.ltb_spec 0 k) as [K0|K0].
    + replace (k =? 0) with false by (symmetry; apply N.eqb_neq; lia).
      destruct (N.ltb_spec k l) as [Kl|Kl]; cbn [andb]; [|nia].
      replace (15 - k) with ((l - k) + (15 - l)) by lia. rewrite N.pow_add_r. nia.
    + cbn [andb]. replace (k =? 0) with true by (symmetry; apply N.eqb_eq; lia). lia.
Qed.
Lemma count_before l : forall lens k, nth_error lens k = Some l ->
  (count_occ N.eq_dec (firstn k lens) l < count_occ N.eq_dec lens l)%nat.
Proof.
  induction lens as [|a t IH]; intros [|k] E; try discriminate.
  - injection E as ->. cbn [firstn count_occ]. destruct (N.eq_dec l l); [lia|contradiction].
  - cbn [firstn count_occ]. specialize (IH k E). destruct (N.eq_dec a l); lia.
Qed.
Lemma len_of_nth lens s : has_code lens s -> nth_error lens (N.to_nat s) = Some (len_of lens s).
Proof.
  unfold has_code, len_of. intros H. destruct (nth_error lens (N.to_nat s)) as [v|] eqn:E.
  - rewrite (nth_error_nth _ _ 0 E). reflexivity.
  - apply nth_error_None in E. rewrite nth_overflow in H by exact E. contradiction.
Qed.
Lemma code_fits lens s : weight lens <= 2 ^ 15 -> has_code lens s -> len_of lens s <= 15 ->
  code_value lens s < 2 ^ len_of lens s.
Proof.
  intros W H L. pose proof (len_of_nth _ _ H) as E. unfold has_code in H.
  unfold code_value. set (l := len_of lens s) in *.
  pose proof (weight_split l lens ltac:(lia) L) as S. pose proof (count_before _ _ _ E) as C.
  assert (P : 2 ^ 15 = 2 ^ l * 2 ^ (15 - l)) by (rewrite <- N.pow_add_r; f_equal; lia).
  rewrite P in W. pose proof (pow2_pos (15 - l)).
  apply (N.mul_lt_mono_pos_r (2 ^ (15 - l))); [assumption|]. nia.
Qed.

Lemma len_of_le lens : (forall s, len_of lens s <= 15) -> Forall (fun l => l <= 15) lens.
Proof.
  intros H. apply Forall_forall. intros l I. apply (In_nth _ _ 0) in I. destruct I as (k & _ & <-).
  specialize (H (N.of_nat k)). unfold len_of in H. rewrite Nat2N.id in H. exact H.
Qed.
Lemma len_of_cons a t s : len_of (a :: t) (N.succ s) = len_of t s.
Proof. unfold len_of. rewrite N2Nat.inj_succ. reflexivity. Qed.
Lemma weight_zero lens : (forall s, len_of lens s = 0) -> weight lens = 0.
Proof.
  induction lens as [|a t IH]; intros H; [reflexivity|]. cbn [weight].
  pose proof (H 0) as H0. change (a = 0) in H0. subst a. rewrite IH; [reflexivity|].
  intros s. rewrite <- (len_of_cons 0 t s). apply H.
Qed.
Lemma weight_one lens : forall s, len_of lens s = 1 -> (forall s', s' <> s -> len_of lens s' = 0) -> weight lens = 2 ^ 14.
Proof.
  induction lens as [|a t IH]; intros s H1 H0.
  - unfold len_of in H1. destruct (N.to_nat s); discriminate.
  - cbn [weight]. destruct (N.eq_dec s 0) as [->|Ns].
    + change (a = 1) in H1. subst a. rewrite weight_zero; [reflexivity|].
      intros s. rewrite <- (len_of_cons 1 t s). apply H0. lia.
    + pose proof (H0 0 ltac:(lia)) as A. change (a = 0) in A. subst a. rewrite (IH (N.pred s)); [reflexivity| |].
      * rewrite <- (len_of_cons 0 t (N.pred s)). rewrite N.succ_pred by exact Ns. exact H1.
      * intros s' Hs. rewrite <- (len_of_cons 0 t s'). apply H0. lia.
Qed.
Lemma good_weight lens : good_code lens -> weight lens <= 2 ^ 15.
Proof.
  intros [_ [->|[(s & H1 & H0)|H]]].
  - reflexivity.
  - rewrite (weight_one lens s H1 H0). vm_compute. discriminate.
  - rewrite (weight_zero lens H). vm_compute. discriminate.
Qed.

(** ** What [code_ok] checks *)
Lemma kraft_weight lens : kraft (filter (fun l => negb (l =? 0)) lens) = weight lens.
Proof.
  induction lens as [|l t IH]; [reflexivity|]. cbn [filter weight].
  destruct (l =? 0) eqn:E; cbn [negb]; [rewrite IH; reflexivity|].
  cbn [kraft]. rewrite E, IH. reflexivity.
Qed.
Lemma used_nil lens : filter (fun l => negb (l =? 0)) lens = [] <-> forall s, len_of lens s = 0.
Proof.
  induction lens as [|l t IH].
  - split; [|reflexivity]. intros _ s. unfold len_of. destruct (N.to_nat s); reflexivity.
  - cbn [filter]. destruct (N.eqb_spec l 0) as [->|Ne]; cbn [negb].
    + rewrite IH. split; intros H s.
      * destruct (N.eq_dec s 0) as [->|Ns]; [reflexivity|].
        rewrite <- (N.succ_pred s Ns), len_of_cons. apply H.
      * rewrite <- (len_of_cons 0 t s). apply H.
    + split; [discriminate|]. intros H. contradiction (Ne (H 0)).
Qed.
Lemma used_one lens : filter (fun l => negb (l =? 0)) lens = [1] <->
  exists s, len_of lens s = 1 /\ forall s', s' <> s -> len_of lens s' = 0.
Proof.
  induction lens as [|l t IH].
  - split; [discriminate|]. intros (s & H & _). unfold len_of in H. destruct (N.to_nat s); discriminate.
  - cbn [filter]. destruct (N.eqb_spec l 0) as [->|Ne]; cbn [negb].
    + rewrite IH. split; intros (s & H1 & H0).
      * exists (N.succ s). rewrite len_of_cons. split; [exact H1|]. intros s' Hs.
        destruct (N.eq_dec s' 0) as [->|Ns]; [reflexivity|].
        rewrite <- (N.succ_pred s' Ns), len_of_cons. apply H0. intros <-. apply Hs. rewrite N.succ_pred; auto.
      * assert (Ns : s <> 0) by (intros ->; discriminate H1).
        exists (N.pred s). split; [rewrite <- (len_of_cons 0 t), N.succ_pred; assumption|].
        intros s' Hs. rewrite <- (len_of_cons 0 t s'). apply H0. lia.
    + split.
      * intros E. injection E as -> E. exists 0. split; [reflexivity|]. intros s' Hs.
        rewrite <- (N.succ_pred s' Hs), len_of_cons. apply used_nil. exact E.
      * intros (s & H1 & H0). assert (s = 0) as ->.
        { destruct (N.eq_dec s 0) as [|Ns]; [assumption|]. contradiction Ne. apply (H0 0). lia. }
        change (l = 1) in H1. subst l. f_equal. apply used_nil. intros s. rewrite <- (len_of_cons 1 t s). apply H0. lia.
Qed.
Lemma code_ok_good lens : Forall (fun l => l <= 15) lens -> (code_ok lens = true <-> good_code lens).
Proof.
  intros F. assert (F' : forall s, len_of lens s <= 15).
  { intros s. unfold len_of. destruct (nth_in_or_default (N.to_nat s) lens 0) as [I| ->]; [|lia].
    rewrite Forall_forall in F. apply F, I. }
  unfold code_ok, good_code. pose proof (used_nil lens) as U0. pose proof (used_one lens) as U1.
  pose proof (kraft_weight lens) as K.
  destruct (filter (fun l => negb (l =? 0)) lens) as [|a t] eqn:E.
  - split; [|reflexivity]. intros _. split; [exact F'|]. right. right. apply U0. reflexivity.
  - assert (Q : (match a :: t with [] => true | [1] => true | used => kraft used =? 2 ^ 15 end) = true
                <-> a :: t = [1] \/ weight lens = 2 ^ 15).
    { rewrite <- K. destruct a as [|[p|p|]]; destruct t as [|b t]; (rewrite N.eqb_eq || idtac);
        try (split; [intros H; right; exact H|intros [H|H]; [discriminate|exact H]]).
      split; [left; reflexivity|reflexivity]. }
    rewrite Q, U1. split.
    + intros [H|H]; (split; [exact F'|]); [right; left; exact H|left; exact H].
    + intros [_ [H|[H|H]]]; [right; exact H|left; exact H|]. apply U0 in H. discriminate.
Qed.

(** ** Symbols of a code *)
Lemma seq_nth_error n a j : (j < n)%nat -> nth_error (seq a n) j = Some (a + j)%nat.
Proof.
  intros L. assert (L' : (j < length (seq a n))%nat) by (rewrite seq_length; exact L).
  destruct (nth_error (seq a n) j) as [k|] eqn:E; [|apply nth_error_None in E; lia].
  apply (nth_error_nth _ _ 0%nat) in E. rewrite seq_nth in E by exact L. rewrite E. reflexivity.
Qed.
Lemma decode_code lens s rest : weight lens <= 2 ^ 15 -> has_code lens s -> len_of lens s <= 15 ->
  decode_symbol (groups lens) 0 (code_bits lens s ++ rest) = Ret (s, rest).
Proof.
  intros W H L. pose proof (code_fits lens s W H L) as V. pose proof (len_of_nth _ _ H) as E.
  unfold has_code in H. unfold code_bits. set (l := len_of lens s) in *.
  remember (N.to_nat l - 1)%nat as j eqn:J.
  assert (El : N.to_nat l = S j) by lia. rewrite El.
  assert (El' : l = N.of_nat (S j)) by lia.
  apply (decode_complete j (groups lens) 0 (code_value lens s)
           (count_occ N.eq_dec (firstn (N.to_nat s) lens) l) s (symbols_with l 0 lens)).
  - rewrite groups_levels. unfold levels. rewrite nth_error_map.
    rewrite (seq_nth_error 15 1 j) by lia.
    cbn [option_map]. rewrite El'. reflexivity.
  - apply symbols_nth. exists (N.to_nat s). repeat split; [lia|exact E].
  - rewrite <- El'. exact V.
  - rewrite lead_shorter by lia. unfold code_value. fold l. rewrite <- El'. lia.
Qed.
Lemma decode_code_inv lens bits s rest : decode_symbol (groups lens) 0 bits = Ret (s, rest) ->
  has_code lens s /\ len_of lens s <= 15 /\ bits = code_bits lens s ++ rest.
Proof.
  intros D. apply decode_sound in D. destruct D as (j & g & r & v & Hg & Hs & Hv & E & ->).
  rewrite groups_levels in Hg. unfold levels in Hg. rewrite nth_error_map in Hg.
  destruct (nth_error (seq 1 15) j) as [k|] eqn:Ek; [|discriminate]. cbn [option_map] in Hg. injection Hg as <-.
  assert (J : (j < 15)%nat) by (pose proof (proj1 (nth_error_Some (seq 1 15) j) ltac:(congruence)) as Q; rewrite seq_length in Q; exact Q).
  rewrite (seq_nth_error 15 1 j) in Ek by exact J.
  injection Ek as <-. apply symbols_nth in Hs. destruct Hs as (k & -> & En & ->). rewrite N.add_0_l in *.
  rewrite lead_shorter in E by exact J.
  assert (Ll : len_of lens (N.of_nat k) = N.of_nat (S j)) by (unfold len_of; rewrite Nat2N.id; apply (nth_error_nth _ _ 0), En).
  unfold has_code, code_bits, code_value. rewrite Ll. rewrite !Nat2N.id.
  split; [lia|]. split; [lia|]. rewrite <- E. reflexivity.
Qed.

(** A good code never reads one symbol as another *)
Lemma good_decode lens s rest : good_code lens -> has_code lens s ->
  decode_symbol (groups lens) 0 (code_bits lens s ++ rest) = Ret (s, rest).
Proof. intros G H. apply decode_code; [apply good_weight, G|exact H|apply G]. Qed.

(** ** Copies *)
Lemma copied_add a : forall b dist out, copied (a + b) dist out = copied b dist (copied a dist out).
Proof. induction a as [|a IH]; intros b dist out; [reflexivity|]. cbn [Nat.add copied]. apply IH. Qed.
Lemma copied_short n : forall dist out, (n <= dist)%nat -> (dist <= length out)%nat ->
  copied n dist out = out ++ firstn n (skipn (length out - dist) out).
Proof.
  induction n as [|n IH]; intros dist out L1 L2; [cbn; rewrite app_nil_r; reflexivity|].
  replace (S n) with (n + 1)%nat by lia. rewrite copied_add, IH by lia. cbn [copied].
  set (k := (length out - dist)%nat).
  assert (Lf : length (firstn n (skipn k out)) = n) by (rewrite firstn_length, skipn_length; unfold k; lia).
  rewrite app_length, Lf. rewrite <- app_assoc. f_equal.
  replace (length out + n - dist)%nat with (k + n)%nat by (unfold k; lia).
  rewrite app_nth1 by (unfold k; lia).
  replace (n + 1)%nat with (S n) by lia.
  assert (G : forall (l : list N) m, (m < length l)%nat -> firstn m l ++ [nth m l 0] = firstn (S m) l).
  { clear. induction l as [|a l IH]; intros [|m] L; cbn [length] in L; try lia; [reflexivity|].
    cbn [firstn app nth]. f_equal. apply IH. lia. }
  rewrite <- G by (rewrite skipn_length; unfold k; lia). do 2 f_equal.
  rewrite <- (firstn_skipn k out) at 1. rewrite app_nth2 by (rewrite firstn_length; lia).
  rewrite firstn_length. f_equal. unfold k. lia.
Qed.
Lemma copied_length n : forall dist out, length (copied n dist out) = (n + length out)%nat.
Proof. induction n as [|n IH]; intros dist out; [reflexivity|]. cbn [copied]. rewrite IH, app_length. cbn [length]. lia. Qed.
Lemma copy_back_copied fuel : forall len dist out, (len <= fuel)%nat -> (0 < dist <= length out)%nat ->
  copy_back fuel len dist (rev out) = rev (copied len dist out).
Proof.
  induction fuel as [|fuel IH]; intros len dist out L D.
  - replace len with 0%nat by lia. reflexivity.
  - cbn [copy_back]. destruct (Nat.leb_spec len dist) as [Le|Le].
    + rewrite copied_short by lia. rewrite rev_app_distr. f_equal.
      rewrite skipn_rev, firstn_rev. f_equal.
      rewrite skipn_firstn_comm. rewrite firstn_length.
      replace (Nat.min (length out - (dist - len)) (length out) - len)%nat with (length out - dist)%nat by lia.
      f_equal. lia.
    + assert (E : firstn dist (rev out) ++ rev out = rev (copied dist dist out)).
      { rewrite copied_short by lia. rewrite rev_app_distr. f_equal. rewrite firstn_rev. f_equal.
        symmetry. apply firstn_all2. rewrite skipn_length. lia. }
      rewrite E, IH; [|lia|rewrite copied_length; lia].
      rewrite <- copied_add. do 2 f_equal. lia.
Qed.
