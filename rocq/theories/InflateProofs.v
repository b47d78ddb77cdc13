(** * The decoder reads exactly the deflate format *)
From Coq Require Import ZArith.
From Verif Require Import Prim PrimFacts Png SpecDeflate HuffProofs.

Lemma bind_ret {A B} (x : res A) (f : A -> res B) b : bind x f = Ret b -> exists a, x = Ret a /\ f a = Ret b.
Proof. destruct x as [a|]; [|discriminate]. intros E. exists a. split; [reflexivity|exact E]. Qed.

(** ** Tables *)
Lemma length_table i : i < 29 -> nth_error length_codes (N.to_nat i) = Some (length_base i, length_extra i).
Proof.
  intros L. assert (H : forallb (fun k => match nth_error length_codes k with
      Some (b, e) => (b =? length_base (N.of_nat k)) && (e =? length_extra (N.of_nat k)) | None => false end) (seq 0 29) = true)
    by (vm_compute; reflexivity).
  rewrite forallb_forall in H. specialize (H (N.to_nat i) ltac:(apply in_seq; lia)). rewrite N2Nat.id in H.
  destruct (nth_error length_codes (N.to_nat i)) as [[b e]|]; [|discriminate].
  apply andb_prop in H. destruct H as [H1 H2]. apply N.eqb_eq in H1, H2. congruence.
Qed.
Lemma distance_table i : i < 30 -> nth_error distance_codes (N.to_nat i) = Some (distance_base i, distance_extra i).
Proof.
  intros L. assert (H : forallb (fun k => match nth_error distance_codes k with
      Some (b, e) => (b =? distance_base (N.of_nat k)) && (e =? distance_extra (N.of_nat k)) | None => false end) (seq 0 30) = true)
    by (vm_compute; reflexivity).
  rewrite forallb_forall in H. specialize (H (N.to_nat i) ltac:(apply in_seq; lia)). rewrite N2Nat.id in H.
  destruct (nth_error distance_codes (N.to_nat i)) as [[b e]|]; [|discriminate].
  apply andb_prop in H. destruct H as [H1 H2]. apply N.eqb_eq in H1, H2. congruence.
Qed.
Lemma distance_pos j : 1 <= distance_base j.
Proof. unfold distance_base. destruct (j <? 4); nia. Qed.

Lemma extra_ok codes i base n v rest : nth_error codes (N.to_nat i) = Some (base, n) -> v < 2 ^ n ->
  with_extra codes i (lsb_bits (N.to_nat n) v ++ rest) = Ret (base + v, rest).
Proof.
  intros E L. unfold with_extra. rewrite E, take_bits_lsb; [reflexivity|]. rewrite N2Nat.id. exact L.
Qed.
Lemma extra_inv codes i bits x rest : with_extra codes i bits = Ret (x, rest) ->
  exists base n v, nth_error codes (N.to_nat i) = Some (base, n) /\ v < 2 ^ n /\ x = base + v /\
    bits = lsb_bits (N.to_nat n) v ++ rest.
Proof.
  unfold with_extra. destruct (nth_error codes (N.to_nat i)) as [[base n]|]; [|discriminate].
  intros E. apply bind_ret in E. destruct E as ([v r] & E1 & E2). injection E2 as <- <-.
  apply take_bits_inv in E1. rewrite N2Nat.id in E1. destruct E1 as [L ->].
  exists base, n, v. repeat split. exact L.
Qed.

(** ** Tokens *)
Definition len15 (lens : list N) : Prop := weight lens <= 2 ^ 15 /\ Forall (fun l => l <= 15) lens.
Lemma len15_decode lens s rest : len15 lens -> has_code lens s ->
  decode_symbol (groups lens) 0 (code_bits lens s ++ rest) = Ret (s, rest).
Proof.
  intros [W F] H. apply decode_code; [exact W|exact H|].
  apply len_of_nth, nth_error_In in H. rewrite Forall_forall in F. apply F, H.
Qed.
Lemma good_len15 lens : good_code lens -> len15 lens.
Proof. intros G. split; [apply good_weight, G|]. apply len_of_le, G. Qed.

Lemma code_length lens s : has_code lens s -> (1 <= length (code_bits lens s))%nat.
Proof. unfold has_code, code_bits. intros H. rewrite msb_length. lia. Qed.

Lemma symbols_complete lit dist out bits out' rest : len15 lit -> len15 dist ->
  tokens_bits lit dist out bits out' rest ->
  forall fuel, (length bits < fuel)%nat ->
  inflate_symbols fuel (groups lit) (groups dist) bits (N.of_nat (length out)) (rev out)
  = Ret (rest, N.of_nat (length out'), rev out').
Proof.
  intros Gl Gd. induction 1 as [out rest H|out t b bits out' rest Ht Hf Hr IH]; intros [|fuel] L; try lia.
  - cbn [inflate_symbols]. rewrite len15_decode by assumption. reflexivity.
  - rewrite app_length in L. destruct Ht as [b Lb Hb|i v j w Li Lv Hi Lj Lw Hj].
    + cbn [inflate_symbols]. rewrite len15_decode by assumption. cbn [bind].
      replace (b <? 256) with true by (symmetry; apply N.ltb_lt; exact Lb).
      cbn [after_token] in IH. pose proof (code_length _ _ Hb).
      specialize (IH fuel ltac:(lia)). rewrite rev_app_distr, app_length in IH. cbn [length rev app] in IH.
      rewrite <- IH. f_equal. lia.
    + cbn [inflate_symbols]. rewrite <- !app_assoc. rewrite len15_decode by assumption. cbn [bind].
      replace (257 + i <? 256) with false by (symmetry; apply N.ltb_ge; lia).
      replace (257 + i =? 256) with false by (symmetry; apply N.eqb_neq; lia).
      replace (257 + i - 257) with i by lia.
      rewrite (extra_ok _ _ _ _ v _ (length_table i Li) Lv). cbn [bind].
      rewrite len15_decode by assumption. cbn [bind].
      rewrite (extra_ok _ _ _ _ w _ (distance_table j Lj) Lw). cbn [bind].
      cbn [token_fits after_token] in Hf, IH. pose proof (distance_pos j).
      replace (N.of_nat (length out) <? distance_base j + w) with false by (symmetry; apply N.ltb_ge; lia).
      rewrite copy_back_copied by lia.
      pose proof (code_length _ _ Hi). rewrite !app_length in L.
      specialize (IH fuel ltac:(lia)). rewrite copied_length in IH.
      rewrite <- IH. f_equal. lia.
Qed.

Lemma symbols_sound lit dist fuel : forall bits out rest n' o',
  inflate_symbols fuel (groups lit) (groups dist) bits (N.of_nat (length out)) (rev out) = Ret (rest, n', o') ->
  exists out', o' = rev out' /\ n' = N.of_nat (length out') /\ tokens_bits lit dist out bits out' rest.
Proof.
  induction fuel as [|fuel IH]; intros bits out rest n' o' E; [discriminate|]. cbn [inflate_symbols] in E.
  apply bind_ret in E. destruct E as ([s bits1] & E1 & E).
  apply decode_code_inv in E1. destruct E1 as (H & _ & ->).
  destruct (N.ltb_spec s 256) as [L|L].
  - assert (E' : inflate_symbols fuel (groups lit) (groups dist) bits1 (N.of_nat (length (out ++ [s]))) (rev (out ++ [s]))
                 = Ret (rest, n', o')).
    { rewrite <- E. rewrite rev_app_distr, app_length. cbn [length rev app]. f_equal. lia. }
    apply IH in E'. destruct E' as (out' & E1 & E2 & T). exists out'. split; [exact E1|]. split; [exact E2|].
    apply (one_token lit dist out (Lit s)); [constructor; assumption|exact I|exact T].
  - destruct (N.eqb_spec s 256) as [->|Ne].
    + injection E as <- <- <-. exists out. repeat split. constructor. exact H.
    + apply bind_ret in E. destruct E as ([len bits2] & E1 & E).
      apply extra_inv in E1. destruct E1 as (lb & le & v & Ht & Lv & -> & ->).
      apply bind_ret in E. destruct E as ([j bits3] & E1 & E).
      apply decode_code_inv in E1. destruct E1 as (Hj & _ & ->).
      apply bind_ret in E. destruct E as ([d bits4] & E1 & E).
      apply extra_inv in E1. destruct E1 as (db & de & w & Ht' & Lw & -> & ->).
      assert (Li : s - 257 < 29).
      { pose proof (proj1 (nth_error_Some length_codes (N.to_nat (s - 257))) ltac:(congruence)) as Q.
        change (length length_codes) with 29%nat in Q. lia. }
      assert (Lj : j < 30).
      { pose proof (proj1 (nth_error_Some distance_codes (N.to_nat j)) ltac:(congruence)) as Q.
        change (length distance_codes) with 30%nat in Q. lia. }
      rewrite length_table in Ht by exact Li. injection Ht as <- <-.
      rewrite distance_table in Ht' by exact Lj. injection Ht' as <- <-.
      destruct (N.ltb_spec (N.of_nat (length out)) (distance_base j + w)) as [D|D]; [discriminate|].
      pose proof (distance_pos j). rewrite copy_back_copied in E by lia.
      set (out2 := copied (N.to_nat (length_base (s - 257) + v)) (N.to_nat (distance_base j + w)) out) in *.
      assert (E' : inflate_symbols fuel (groups lit) (groups dist) bits4 (N.of_nat (length out2)) (rev out2) = Ret (rest, n', o')).
      { rewrite <- E. f_equal. unfold out2. rewrite copied_length. lia. }
      apply IH in E'. destruct E' as (out' & E1 & E2 & T). exists out'. split; [exact E1|]. split; [exact E2|].
      set (i := s - 257) in *. assert (Es : s = 257 + i) by (unfold i; lia). rewrite Es in *.
      pose proof (one_token lit dist out (Copy (length_base i + v) (distance_base j + w)) _ bits4 out' rest
        (copy_bits lit dist i v j w Li Lv H Lj Lw Hj) D T) as R.
      rewrite <- !app_assoc in R. exact R.
Qed.

(** ** The codes of a block *)
Lemma lengths_grow code lens bits lens' rest : lengths_bits code lens bits lens' rest ->
  (length lens <= length lens')%nat.
Proof.
  induction 1; rewrite ?app_length, ?repeat_length in *; cbn [length] in *; lia.
Qed.

Lemma repeat_snoc {A} (a : A) n : repeat a n ++ [a] = a :: repeat a n.
Proof. induction n as [|n IH]; [reflexivity|]. cbn [repeat app]. rewrite IH. reflexivity. Qed.
Lemma rev_repeat {A} (a : A) n : rev (repeat a n) = repeat a n.
Proof. induction n as [|n IH]; [reflexivity|]. cbn [repeat rev]. rewrite IH. apply repeat_snoc. Qed.

Lemma lengths_complete code lens bits lens' rest : len15 code -> lengths_bits code lens bits lens' rest ->
  forall fuel, (length lens' - length lens < fuel)%nat ->
  code_lengths fuel (groups code) (length lens' - length lens) bits (rev lens) = Ret (lens', rest).
Proof.
  intros G. induction 1 as [lens rest|lens l bits lens' rest L H T IH|lens l k bits lens' rest L H T IH
      |lens k bits lens' rest L H T IH|lens k bits lens' rest L H T IH]; intros [|fuel] Lf; try lia.
  - rewrite Nat.sub_diag. cbn [code_lengths]. rewrite rev_involutive. reflexivity.
  - pose proof (lengths_grow _ _ _ _ _ T) as Gr. rewrite app_length in *. cbn [length] in *.
    destruct (length lens' - length lens)%nat as [|n] eqn:En; [lia|]. cbn [code_lengths].
    rewrite len15_decode by assumption. cbn [bind].
    replace (l <? 16) with true by (symmetry; apply N.ltb_lt; exact L).
    specialize (IH fuel ltac:(lia)). rewrite rev_app_distr in IH. cbn [rev app] in IH.
    rewrite <- IH. f_equal. lia.
  - pose proof (lengths_grow _ _ _ _ _ T) as Gr. rewrite !app_length, repeat_length in *. cbn [length] in *.
    destruct (length lens' - (length lens + 1))%nat as [|n] eqn:En; [lia|]. cbn [code_lengths].
    rewrite len15_decode by assumption. cbn [bind].
    replace (16 <? 16) with false by reflexivity. replace (16 =? 16) with true by reflexivity.
    rewrite rev_app_distr. cbn [rev app]. rewrite take_bits_lsb by exact L. cbn [bind].
    replace (N.to_nat (3 + k)) with (3 + N.to_nat k)%nat by lia.
    destruct (Nat.ltb_spec (S n) (3 + N.to_nat k)); [lia|].
    specialize (IH fuel ltac:(lia)). rewrite !rev_app_distr, rev_repeat in IH. cbn [rev app] in IH.
    rewrite <- IH. f_equal. lia.
  - pose proof (lengths_grow _ _ _ _ _ T) as Gr. rewrite !app_length, repeat_length in *. cbn [length] in *.
    destruct (length lens' - length lens)%nat as [|n] eqn:En; [lia|]. cbn [code_lengths].
    rewrite len15_decode by assumption. cbn [bind].
    replace (17 <? 16) with false by reflexivity. replace (17 =? 16) with false by reflexivity.
    replace (17 =? 17) with true by reflexivity. rewrite take_bits_lsb by exact L. cbn [bind].
    replace (N.to_nat (3 + k)) with (3 + N.to_nat k)%nat by lia.
    destruct (Nat.ltb_spec (S n) (3 + N.to_nat k)); [lia|].
    specialize (IH fuel ltac:(lia)). rewrite !rev_app_distr, rev_repeat in IH.
    rewrite <- IH. f_equal. lia.
  - pose proof (lengths_grow _ _ _ _ _ T) as Gr. rewrite !app_length, repeat_length in *. cbn [length] in *.
    destruct (length lens' - length lens)%nat as [|n] eqn:En; [lia|]. cbn [code_lengths].
    rewrite len15_decode by assumption. cbn [bind].
    replace (18 <? 16) with false by reflexivity. replace (18 =? 16) with false by reflexivity.
    replace (18 =? 17) with false by reflexivity. rewrite take_bits_lsb by exact L. cbn [bind].
    replace (N.to_nat (11 + k)) with (11 + N.to_nat k)%nat by lia.
    destruct (Nat.ltb_spec (S n) (11 + N.to_nat k)); [lia|].
    specialize (IH fuel ltac:(lia)). rewrite !rev_app_distr, rev_repeat in IH.
    rewrite <- IH. f_equal. lia.
Qed.

Lemma lengths_sound code fuel : (length code <= 19)%nat -> forall n bits lens lens' rest,
  code_lengths fuel (groups code) n bits (rev lens) = Ret (lens', rest) ->
  lengths_bits code lens bits lens' rest /\ length lens' = (length lens + n)%nat.
Proof.
  intros L19. induction fuel as [|fuel IH]; intros n bits lens lens' rest E; [discriminate|]. cbn [code_lengths] in E.
  destruct n as [|n].
  - injection E as <- <-. rewrite rev_involutive. split; [constructor|lia].
  - apply bind_ret in E. destruct E as ([s bits1] & E1 & E).
    apply decode_code_inv in E1. destruct E1 as (H & _ & ->).
    assert (Ls : s < 19).
    { pose proof (len_of_nth _ _ H) as Q. pose proof (proj1 (nth_error_Some code (N.to_nat s)) ltac:(congruence)). lia. }
    destruct (N.ltb_spec s 16) as [L|L].
    + change (s :: rev lens) with ([s] ++ rev lens) in E. change [s] with (rev [s]) in E. rewrite <- rev_app_distr in E.
      apply IH in E. destruct E as [T EL]. rewrite app_length in EL. cbn [length] in EL.
      split; [|lia]. apply one_length; assumption.
    + apply bind_ret in E. destruct E as ([[v k] bits2] & E1 & E).
      set (kn := N.to_nat k) in *. destruct (Nat.ltb_spec (S n) kn) as [Lk|Lk]; [discriminate|].
      destruct (N.eqb_spec s 16) as [->|N16].
      * destruct (rev lens) as [|l tl] eqn:Er; [discriminate|].
        apply bind_ret in E1. destruct E1 as ([k' bits3] & E1 & E2). injection E2 as <- <- <-.
        apply take_bits_inv in E1. destruct E1 as [Lk' ->].
        assert (El : lens = rev tl ++ [l]) by (rewrite <- (rev_involutive lens), Er; reflexivity).
        rewrite <- Er in E. rewrite <- (rev_repeat l kn), <- rev_app_distr in E.
        apply IH in E. destruct E as [T EL]. rewrite app_length, repeat_length in EL.
        split; [|lia]. rewrite El in *. apply repeat_last; [exact Lk'|exact H|].
        unfold kn in T. replace (N.to_nat (3 + k')) with (3 + N.to_nat k')%nat in T by lia. exact T.
      * destruct (N.eqb_spec s 17) as [->|N17].
        -- apply bind_ret in E1. destruct E1 as ([k' bits3] & E1 & E2). injection E2 as <- <- <-.
           apply take_bits_inv in E1. destruct E1 as [Lk' ->].
           rewrite <- (rev_repeat 0 kn), <- rev_app_distr in E.
           apply IH in E. destruct E as [T EL]. rewrite app_length, repeat_length in EL.
           split; [|lia]. apply some_zeros; [exact Lk'|exact H|].
           unfold kn in T. replace (N.to_nat (3 + k')) with (3 + N.to_nat k')%nat in T by lia. exact T.
        -- assert (s = 18) as -> by lia.
           apply bind_ret in E1. destruct E1 as ([k' bits3] & E1 & E2). injection E2 as <- <- <-.
           apply take_bits_inv in E1. destruct E1 as [Lk' ->].
           rewrite <- (rev_repeat 0 kn), <- rev_app_distr in E.
           apply IH in E. destruct E as [T EL]. rewrite app_length, repeat_length in EL.
           split; [|lia]. apply many_zeros; [exact Lk'|exact H|].
           unfold kn in T. replace (N.to_nat (11 + k')) with (11 + N.to_nat k')%nat in T by lia. exact T.
Qed.

(** ** Lengths of the code for lengths *)
Fixpoint place (ord : list nat) (values lens : list N) : list N :=
  match ord, values with
  | i :: ord', v :: values' => place ord' values' (upd lens i v)
  | _, _ => lens
  end.
Lemma take_lengths_complete : forall ord values lens rest, (length values <= length ord)%nat ->
  Forall (fun v => v < 8) values ->
  take_lengths ord (length values) (flat_map (lsb_bits 3) values ++ rest) lens = Ret (place ord values lens, rest).
Proof.
  intros ord values. revert ord. induction values as [|v t IH]; intros [|i ord] lens rest L F; cbn [length] in *; try lia; try reflexivity.
  inversion F as [|? ? Lv F' E]; subst. cbn [flat_map take_lengths place]. rewrite <- app_assoc.
  rewrite take_bits_lsb by exact Lv. cbn [bind]. apply IH; [lia|exact F'].
Qed.
Lemma take_lengths_sound : forall n ord bits lens lens' rest, take_lengths ord n bits lens = Ret (lens', rest) ->
  exists values, length values = n /\ (n <= length ord)%nat /\ Forall (fun v => v < 8) values /\
    bits = flat_map (lsb_bits 3) values ++ rest /\ lens' = place ord values lens.
Proof.
  induction n as [|n IH]; intros ord bits lens lens' rest E; cbn [take_lengths] in E.
  - destruct ord; injection E as -> ->; exists []; (split; [reflexivity|]; split; [cbn [length]; lia|]; split; [constructor|]; split; reflexivity).
  - destruct ord as [|i ord]; [discriminate|].
    apply bind_ret in E. destruct E as ([v bits1] & E1 & E). apply take_bits_inv in E1. destruct E1 as [Lv ->].
    apply IH in E. destruct E as (values & L1 & L2 & F & -> & ->). exists (v :: values). cbn [length flat_map place].
    split; [lia|]. split; [lia|]. split; [constructor; assumption|]. rewrite <- app_assoc. split; reflexivity.
Qed.

Lemma place_in_order values : (length values <= 19)%nat -> in_order values (place length_order values (repeat 0 19)).
Proof.
  intros L. assert (L' := L).
  do 19 (destruct values as [|? values];
    [split; [reflexivity|]; split; [exact L'|]; intros k Lk; do 19 (destruct k as [|k]; [reflexivity|]); lia|]).
  destruct values as [|? values]; [|cbn [length] in L; lia].
  split; [reflexivity|]; split; [exact L'|]; intros k Lk; do 19 (destruct k as [|k]; [reflexivity|]); lia.
Qed.
Lemma in_order_unique values l1 l2 : in_order values l1 -> in_order values l2 -> l1 = l2.
Proof.
  intros (L1 & _ & H1) (L2 & _ & H2). apply (nth_ext _ _ 0 0); [congruence|]. intros i Li. rewrite L1 in Li.
  assert (C : forallb (fun i => existsb (fun k => Nat.eqb (N.to_nat (nth k order 0%N)) i) (seq 0 19)) (seq 0 19) = true)
    by (vm_compute; reflexivity).
  rewrite forallb_forall in C. specialize (C i ltac:(apply in_seq; lia)). apply existsb_exists in C.
  destruct C as (k & Ik & Ek). apply in_seq in Ik. apply Nat.eqb_eq in Ek. subst i.
  specialize (H1 k ltac:(lia)). specialize (H2 k ltac:(lia)). unfold len_of in *. congruence.
Qed.

Lemma upd_Forall {A} (P : A -> Prop) : forall l i v, Forall P l -> P v -> Forall P (upd l i v).
Proof.
  induction l as [|a l IH]; intros [|i] v F Hv; inversion F; subst; cbn [upd]; constructor; auto.
Qed.
Lemma place_Forall (P : N -> Prop) : forall ord values lens, Forall P values -> Forall P lens -> Forall P (place ord values lens).
Proof.
  induction ord as [|i ord IH]; intros [|v values] lens Fv Fl; cbn [place]; try assumption.
  inversion Fv; subst. apply IH; [assumption|]. apply upd_Forall; assumption.
Qed.
Lemma lengths_Forall code lens bits lens' rest : lengths_bits code lens bits lens' rest ->
  Forall (fun l => l <= 15) lens -> Forall (fun l => l <= 15) lens'.
Proof.
  assert (R : forall v n, v <= 15 -> Forall (fun l => l <= 15) (repeat v n)).
  { intros v n L. induction n; constructor; assumption. }
  induction 1 as [|lens l ? ? ? L H T IH|lens l k ? ? ? L H T IH|lens k ? ? ? L H T IH|lens k ? ? ? L H T IH]; intros F; try apply IH.
  - exact F.
  - apply Forall_app. split; [exact F|]. constructor; [lia|constructor].
  - apply Forall_app. split; [exact F|]. apply R. apply Forall_app in F. destruct F as [_ F]. inversion F; assumption.
  - apply Forall_app. split; [exact F|]. apply R. lia.
  - apply Forall_app. split; [exact F|]. apply R. lia.
Qed.
Lemma forall_firstn {A} (P : A -> Prop) n l : Forall P l -> Forall P (firstn n l).
Proof. intros F. rewrite <- (firstn_skipn n l) in F. apply Forall_app in F. apply F. Qed.
Lemma forall_skipn {A} (P : A -> Prop) n l : Forall P l -> Forall P (skipn n l).
Proof. intros F. rewrite <- (firstn_skipn n l) in F. apply Forall_app in F. apply F. Qed.

Lemma code_of_good lens : good_code lens -> code_of lens = Ret (groups lens).
Proof.
  intros G. unfold code_of. rewrite (proj2 (code_ok_good lens (len_of_le lens (proj1 G))) G). reflexivity.
Qed.
Lemma code_of_inv lens gs : Forall (fun l => l <= 15) lens -> code_of lens = Ret gs -> good_code lens /\ gs = groups lens.
Proof.
  intros F. unfold code_of. destruct (code_ok lens) eqn:E; [|discriminate]. intros H. injection H as <-.
  split; [apply code_ok_good; assumption|reflexivity].
Qed.

Lemma codes_complete lit dist bits rest : codes_bits lit dist bits rest -> good_code lit -> good_code dist ->
  dynamic_codes bits = Ret (groups lit, groups dist, rest).
Proof.
  intros C Gl Gd. destruct C as [hlit hdist hclen values code lens bits rest Ll Ld Lc Ev Fv O T El G].
  unfold dynamic_codes. rewrite take_bits_lsb by (change (2 ^ N.of_nat 5) with 32; lia). cbn [bind].
  rewrite take_bits_lsb by (change (2 ^ N.of_nat 5) with 32; lia). cbn [bind].
  rewrite take_bits_lsb by exact Lc. cbn [bind].
  replace (257 + N.to_nat hlit)%nat with (N.to_nat (257 + hlit)) by lia.
  set (nl := N.to_nat (257 + hlit)) in *.
  destruct (Nat.ltb_spec 286 nl); [unfold nl in *; lia|].
  destruct (Nat.ltb_spec 30 (1 + N.to_nat hdist)); [lia|]. cbn [orb].
  replace (4 + N.to_nat hclen)%nat with (length values) by lia.
  rewrite take_lengths_complete; [|change (length length_order) with 19%nat; lia|exact Fv]. cbn [bind].
  rewrite <- (in_order_unique values code _ O (place_in_order values ltac:(lia))).
  rewrite (code_of_good code G). cbn [bind].
  pose proof (lengths_complete code [] bits lens rest (good_len15 code G) T) as LC. cbn [rev length] in LC.
  rewrite Nat.sub_0_r in LC.
  replace (nl + (1 + N.to_nat hdist))%nat with (length lens) by (unfold nl; lia).
  rewrite LC by lia. cbn [bind]. rewrite (code_of_good _ Gl). cbn [bind]. rewrite (code_of_good _ Gd). reflexivity.
Qed.
Lemma codes_sound bits gl gd rest : dynamic_codes bits = Ret (gl, gd, rest) ->
  exists lit dist, gl = groups lit /\ gd = groups dist /\ good_code lit /\ good_code dist /\ codes_bits lit dist bits rest.
Proof.
  unfold dynamic_codes. intros E.
  apply bind_ret in E. destruct E as ([hlit bits1] & E1 & E). apply take_bits_inv in E1. destruct E1 as [Ll ->].
  apply bind_ret in E. destruct E as ([hdist bits2] & E1 & E). apply take_bits_inv in E1. destruct E1 as [Ld ->].
  apply bind_ret in E. destruct E as ([hclen bits3] & E1 & E). apply take_bits_inv in E1. destruct E1 as [Lc ->].
  destruct (Nat.ltb_spec 286 (257 + N.to_nat hlit)) as [|L1]; [discriminate|].
  destruct (Nat.ltb_spec 30 (1 + N.to_nat hdist)) as [|L2]; [discriminate|]. cbn [orb] in E.
  apply bind_ret in E. destruct E as ([clens bits4] & E1 & E).
  apply take_lengths_sound in E1. destruct E1 as (values & Lv & Lo & Fv & -> & ->).
  change (length length_order) with 19%nat in Lo.
  pose proof (place_in_order values ltac:(lia)) as O. set (code := place length_order values (repeat 0 19)) in *.
  assert (F8 : Forall (fun l => l < 8) code).
  { apply place_Forall; [exact Fv|]. apply Forall_forall. intros x I. apply repeat_spec in I. subst x. lia. }
  assert (F15 : Forall (fun l => l <= 15) code) by (eapply Forall_impl; [|exact F8]; cbn; intros; lia).
  apply bind_ret in E. destruct E as (gc & E1 & E). apply code_of_inv in E1; [|exact F15]. destruct E1 as [G ->].
  apply bind_ret in E. destruct E as ([lens bits5] & E1 & E).
  apply (lengths_sound code _ ltac:(destruct O as (Q & _); lia) _ _ []) in E1. destruct E1 as [T EL]. cbn [length] in EL.
  pose proof (lengths_Forall _ _ _ _ _ T (Forall_nil _)) as Fl.
  set (nl := (257 + N.to_nat hlit)%nat) in *.
  apply bind_ret in E. destruct E as (g1 & E1 & E). apply code_of_inv in E1; [|apply forall_firstn, Fl]. destruct E1 as [G1 ->].
  apply bind_ret in E. destruct E as (g2 & E1 & E). apply code_of_inv in E1; [|apply forall_skipn, Fl]. destruct E1 as [G2 ->].
  injection E as <- <- <-. exists (firstn nl lens), (skipn nl lens). repeat split; try assumption; try apply G1; try apply G2.
  replace nl with (N.to_nat (257 + hlit)) by (unfold nl; lia).
  apply (some_codes hlit hdist hclen values code lens bits4 bits5); try assumption; try lia.
Qed.

(** ** Stored blocks *)
Lemma take_bytes_complete : forall data rest out, Forall (fun b => b < 256) data ->
  take_bytes (length data) (bytes_bits data ++ rest) out = Ret (rest, rev data ++ out).
Proof.
  induction data as [|b t IH]; intros rest out F; [reflexivity|]. inversion F as [|? ? Lb F' E]; subst.
  unfold bytes_bits. cbn [flat_map length take_bytes]. rewrite <- app_assoc, take_bits_lsb by exact Lb. cbn [bind].
  fold (bytes_bits t). rewrite IH by exact F'. cbn [rev]. rewrite <- app_assoc. reflexivity.
Qed.
Lemma take_bytes_sound : forall n bits out rest out', take_bytes n bits out = Ret (rest, out') ->
  exists data, length data = n /\ Forall (fun b => b < 256) data /\ bits = bytes_bits data ++ rest /\ out' = rev data ++ out.
Proof.
  induction n as [|n IH]; intros bits out rest out' E; cbn [take_bytes] in E.
  - injection E as -> ->. exists []. repeat split. constructor.
  - apply bind_ret in E. destruct E as ([b bits1] & E1 & E). apply take_bits_inv in E1. destruct E1 as [Lb ->].
    apply IH in E. destruct E as (data & L & F & -> & ->). exists (b :: data). cbn [length rev].
    split; [lia|]. split; [constructor; assumption|]. unfold bytes_bits. cbn [flat_map].
    rewrite <- !app_assoc. split; reflexivity.
Qed.
Lemma bytes_length data : length (bytes_bits data) = (8 * length data)%nat.
Proof.
  induction data as [|b t IH]; [reflexivity|]. unfold bytes_bits in *. cbn [flat_map].
  rewrite app_length, lsb_length, IH. cbn [length]. lia.
Qed.
Lemma align_pad pad rest : (length pad < 8)%nat -> Nat.modulo (length rest) 8 = 0%nat -> align (pad ++ rest) = rest.
Proof.
  intros L M. unfold align. rewrite app_length.
  rewrite <- Nat.add_mod_idemp_r, M, Nat.add_0_r, Nat.mod_small by (lia || discriminate).
  rewrite skipn_app, skipn_all, Nat.sub_diag. reflexivity.
Qed.
Lemma align_split bits : exists pad, (length pad < 8)%nat /\ bits = pad ++ align bits /\ Nat.modulo (length (align bits)) 8 = 0%nat.
Proof.
  exists (firstn (Nat.modulo (length bits) 8) bits). unfold align.
  pose proof (Nat.mod_upper_bound (length bits) 8 ltac:(lia)) as U.
  pose proof (Nat.mod_le (length bits) 8 ltac:(lia)) as Le.
  split; [rewrite firstn_length; lia|]. split; [symmetry; apply firstn_skipn|].
  rewrite skipn_length.
  pose proof (Nat.div_mod (length bits) 8 ltac:(lia)) as D.
  replace (length bits - Nat.modulo (length bits) 8)%nat with (length bits / 8 * 8)%nat by lia. apply Nat.mod_mul. lia.
Qed.

(** ** Blocks *)
Lemma fixed_lit_eq : fixed_lit = fixed_literals.
Proof. vm_compute. reflexivity. Qed.
Lemma fixed_dist_eq : fixed_dist = fixed_distances.
Proof. vm_compute. reflexivity. Qed.
Lemma fixed_len15 : len15 fixed_literals /\ len15 fixed_distances.
Proof.
  split; (split; [vm_compute; discriminate|]); apply Forall_forall; intros l I; apply in_map_iff in I; destruct I as (s & <- & _).
  - destruct (s <? 144), (s <? 256), (s <? 280); lia.
  - lia.
Qed.

(** A block's kind, and what follows *)
Lemma block_complete out bits out' rest : block_bits out bits out' rest ->
  exists kind body, take_bits 2 bits = Ret (kind, body) /\ length bits = S (S (length body)) /\
    inflate_block kind body (N.of_nat (length out)) (rev out) = Ret (rest, N.of_nat (length out'), rev out').
Proof.
  destruct 1 as [out pad data rest Lp Mr Ld Fd len|out bits out' rest T|out lit dist bits mid out' rest C Gl Gd T].
  - eexists 0, _. split; [reflexivity|]. split; [reflexivity|]. cbn [inflate_block].
    rewrite align_pad; [|exact Lp|].
    2:{ rewrite !app_length, !lsb_length, bytes_length.
        replace (16 + (16 + (8 * length data + length rest)))%nat with (length rest + (4 + length data) * 8)%nat by lia.
        rewrite Nat.mod_add by lia. exact Mr. }
    rewrite take_bits_lsb by (unfold len; change (2 ^ N.of_nat 16) with 65536; lia). cbn [bind].
    rewrite take_bits_lsb by (unfold len; change (2 ^ N.of_nat 16) with 65536; lia). cbn [bind].
    replace (len + (0xFFFF - len) =? 0xFFFF) with true by (symmetry; apply N.eqb_eq; unfold len; lia).
    unfold len at 1. rewrite Nat2N.id. rewrite take_bytes_complete by exact Fd. cbn [bind].
    rewrite app_length, rev_app_distr, Nat2N.inj_add. reflexivity.
  - eexists 1, bits. split; [reflexivity|]. split; [reflexivity|]. cbn [inflate_block].
    rewrite fixed_lit_eq, fixed_dist_eq. destruct fixed_len15.
    apply symbols_complete; try assumption. lia.
  - eexists 2, bits. split; [reflexivity|]. split; [reflexivity|]. cbn [inflate_block].
    rewrite (codes_complete _ _ _ _ C Gl Gd). cbn [bind].
    apply symbols_complete; try (apply good_len15; assumption); try assumption. lia.
Qed.
Lemma block_sound out bits kind body rest n' o' : take_bits 2 bits = Ret (kind, body) ->
  inflate_block kind body (N.of_nat (length out)) (rev out) = Ret (rest, n', o') ->
  exists out', o' = rev out' /\ n' = N.of_nat (length out') /\ block_bits out bits out' rest.
Proof.
  intros E1 E. apply take_bits_inv in E1. destruct E1 as [Lk ->]. change (2 ^ N.of_nat 2) with 4 in Lk.
  destruct kind as [|[p|p|]].
  - cbn [inflate_block] in E. destruct (align_split body) as (pad & Lp & Eb & Mb). set (al := align body) in *.
    apply bind_ret in E. destruct E as ([len bits1] & E1 & E). apply take_bits_inv in E1. destruct E1 as [Ll Ea].
    apply bind_ret in E. destruct E as ([nlen bits2] & E1 & E). apply take_bits_inv in E1. destruct E1 as [Ln ->].
    destruct (N.eqb_spec (len + nlen) 0xFFFF) as [En|]; [|discriminate].
    apply bind_ret in E. destruct E as ([bits3 o3] & E1 & E). injection E as <- <- <-.
    apply take_bytes_sound in E1. destruct E1 as (data & Ed & Fd & -> & ->).
    exists (out ++ data). rewrite rev_app_distr, app_length. split; [reflexivity|]. split; [lia|].
    rewrite Eb, Ea. change (lsb_bits 2 0) with [false; false]. cbn [app].
    replace nlen with (0xFFFF - len) by lia. replace len with (N.of_nat (length data)) by lia.
    apply stored_block; try assumption; [|lia].
    rewrite Ea, !app_length, !lsb_length, bytes_length in Mb.
    replace (16 + (16 + (8 * length data + length bits3)))%nat with (length bits3 + (4 + length data) * 8)%nat in Mb by lia.
    rewrite Nat.mod_add in Mb by lia. exact Mb.
  - destruct p; try lia. discriminate.
  - destruct p; try lia. cbn [inflate_block] in E.
    apply bind_ret in E. destruct E as ([[gl gd] mid] & E1 & E). apply codes_sound in E1.
    destruct E1 as (lit & dist & -> & -> & Gl & Gd & C). apply symbols_sound in E. destruct E as (out' & -> & -> & T).
    exists out'. repeat split. change (lsb_bits 2 2) with [false; true]. cbn [app]. eapply dynamic_block; eassumption.
  - cbn [inflate_block] in E. rewrite fixed_lit_eq, fixed_dist_eq in E.
    apply symbols_sound in E. destruct E as (out' & -> & -> & T).
    exists out'. repeat split. change (lsb_bits 2 1) with [true; false]. cbn [app]. apply fixed_block. exact T.
Qed.

Lemma block_shrinks out bits out' rest : block_bits out bits out' rest -> (length rest <= length bits)%nat.
Proof.
  assert (T : forall lit dist out bits out' rest, tokens_bits lit dist out bits out' rest -> (length rest <= length bits)%nat).
  { induction 1; rewrite app_length; lia. }
  assert (Ln : forall code lens bits lens' rest, lengths_bits code lens bits lens' rest -> (length rest <= length bits)%nat).
  { induction 1; rewrite ?app_length; lia. }
  destruct 1 as [out pad data rest Lp Mr Ld Fd len|out bits out' rest H|out lit dist bits mid out' rest C Gl Gd H]; cbn [length].
  - rewrite !app_length. lia.
  - apply T in H. lia.
  - apply T in H. destruct C as [? ? ? ? ? ? ? ? ? ? ? ? ? ? L ? ?]. apply Ln in L. rewrite !app_length. lia.
Qed.

(** All blocks: the decoder returns exactly what the format says *)
Lemma inflate_complete out bits out' rest : deflated out bits out' rest ->
  forall fuel, (length bits < fuel)%nat ->
  inflate_blocks fuel bits (N.of_nat (length out)) (rev out) = Ret (rest, out').
Proof.
  assert (R : forall l : list N, rev_append (rev l) [] = l) by (intros l; rewrite rev_append_rev, app_nil_r; apply rev_involutive).
  induction 1 as [out bits out' rest B|out bits out' mid out'' rest B D IH]; intros [|fuel] L; try (cbn [length] in L; lia);
    cbn [inflate_blocks].
  - apply block_complete in B. destruct B as (kind & body & E1 & _ & E2).
    change (take_bits 1 (true :: bits)) with (Ret (1, bits)). cbn [bind].
    rewrite E1. cbn [bind]. rewrite E2. cbn [bind]. change (1 =? 1) with true. rewrite R. reflexivity.
  - pose proof (block_shrinks _ _ _ _ B) as S. apply block_complete in B. destruct B as (kind & body & E1 & _ & E2).
    change (take_bits 1 (false :: bits)) with (Ret (0, bits)). cbn [bind].
    rewrite E1. cbn [bind]. rewrite E2. cbn [bind]. change (0 =? 1) with false. apply IH. cbn [length] in L. lia.
Qed.
Lemma inflate_sound fuel : forall out bits rest out',
  inflate_blocks fuel bits (N.of_nat (length out)) (rev out) = Ret (rest, out') -> deflated out bits out' rest.
Proof.
  assert (R : forall l : list N, rev_append (rev l) [] = l) by (intros l; rewrite rev_append_rev, app_nil_r; apply rev_involutive).
  induction fuel as [|fuel IH]; intros out bits rest out' E; [discriminate|]. cbn [inflate_blocks] in E.
  apply bind_ret in E. destruct E as ([final bits1] & E1 & E). apply take_bits_inv in E1. destruct E1 as [Lf ->].
  apply bind_ret in E. destruct E as ([kind body] & E1 & E).
  apply bind_ret in E. destruct E as ([[bits3 n3] o3] & E2 & E).
  pose proof (block_sound _ _ _ _ _ _ _ E1 E2) as (o & -> & -> & B).
  change (2 ^ N.of_nat 1) with 2 in Lf. destruct (N.eqb_spec final 1) as [->|Nf].
  - injection E as <- <-. rewrite R. change (lsb_bits 1 1) with [true]. constructor. exact B.
  - assert (final = 0) as -> by lia. change (lsb_bits 1 0) with [false]. cbn [app].
    eapply next_block; [exact B|]. apply IH. exact E.
Qed.
Lemma inflate_iff bits rest out :
  inflate_blocks (S (length bits)) bits 0 [] = Ret (rest, out) <-> deflated [] bits out rest.
Proof.
  split; intros H.
  - apply (inflate_sound (S (length bits)) []). exact H.
  - apply (inflate_complete [] bits out rest H). lia.
Qed.
