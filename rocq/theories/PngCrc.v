(** * Proof: crc32 of the model is the remainder of the standard *)
From Coq Require Import ZArith.
From Verif Require Import Prim Png SpecDeflate SpecCrc SpecPng PngProofs.

Lemma lsb_zero n : lsb_bits n 0 = repeat false n.
Proof. induction n as [|n IH]; [reflexivity|]. cbn [lsb_bits repeat]. f_equal. exact IH. Qed.
Lemma lsb_testbit n : forall v, lsb_bits n v = map (fun i => N.testbit v (N.of_nat i)) (seq 0 n).
Proof.
  induction n as [|n IH]; intros v; [reflexivity|]. cbn [lsb_bits seq map]. f_equal; [symmetry; apply N.bit0_odd|].
  rewrite IH, <- seq_shift, map_map. apply map_ext. intros i. rewrite Nat2N.inj_succ. rewrite N.div2_spec, N.shiftr_spec by apply N.le_0_l.
  f_equal. lia.
Qed.
Lemma lsb_length n v : length (lsb_bits n v) = n.
Proof. rewrite lsb_testbit, map_length, seq_length. reflexivity. Qed.

Lemma xor_front_lxor n : forall a b t, xor_front (lsb_bits n (N.lxor a b)) t = xor_front (lsb_bits n a) (xor_front (lsb_bits n b) t).
Proof.
  induction n as [|n IH]; intros a b [|x t]; try reflexivity. cbn [lsb_bits xor_front]. f_equal.
  - rewrite <- !N.bit0_odd, N.lxor_spec. apply xorb_assoc.
  - rewrite <- IH. f_equal. f_equal. apply N.bits_inj. intros i. rewrite !N.div2_spec, N.lxor_spec, !N.shiftr_spec, N.lxor_spec by apply N.le_0_l. reflexivity.
Qed.
Lemma xor_front_false n : forall a t, xor_front (a ++ repeat false n) t = xor_front a t.
Proof.
  induction a as [|x a IH]; intros t; cbn [app].
  - revert t. induction n as [|n IHn]; intros [|b t]; try reflexivity. cbn [repeat xor_front]. rewrite IHn. destruct t, b; reflexivity.
  - destruct t as [|b t]; [reflexivity|]. cbn [xor_front]. f_equal. apply IH.
Qed.
Lemma xor_front_zeros : forall a, xor_front a (repeat false (length a)) = a.
Proof. induction a as [|x a IH]; [reflexivity|]. cbn [length repeat xor_front]. rewrite IH, xorb_false_r. reflexivity. Qed.

(** One bit *)
Definition crc_one (c : N) (b : bool) : N := crc_bit (N.lxor c (N.b2n b)).
Lemma generator_bits : lsb_bits 32 0xEDB88320 = generator.
Proof. reflexivity. Qed.

Lemma high_zero c : c < 2 ^ 32 -> lsb_bits 32 (N.div2 c) = tl (lsb_bits 32 c) ++ [false].
Proof.
  intros L. rewrite !lsb_testbit. change (seq 0 32) with (0%nat :: seq 1 31) at 2. cbn [map tl].
  replace (seq 0 32) with (seq 0 31 ++ [31%nat]) by reflexivity. rewrite map_app. cbn [map]. f_equal.
  - rewrite <- seq_shift, map_map. apply map_ext. intros i. rewrite N.div2_spec, N.shiftr_spec by apply N.le_0_l. f_equal. lia.
  - f_equal. rewrite N.div2_spec, N.shiftr_spec by apply N.le_0_l. change (N.of_nat 31 + 1) with 32.
    destruct (N.eq_dec c 0) as [->|Nz]; [reflexivity|]. apply N.bits_above_log2. apply N.log2_lt_pow2; lia.
Qed.

Lemma crc_one_bound c b : c < 2 ^ 32 -> crc_one c b < 2 ^ 32.
Proof. intros L. apply crc_bit_bound, lxor_bound; [exact L|destruct b; reflexivity]. Qed.

Lemma div2_b2n c b : N.div2 (N.lxor c (N.b2n b)) = N.div2 c.
Proof.
  apply N.bits_inj. intros i. rewrite !N.div2_spec, !N.shiftr_spec, N.lxor_spec by apply N.le_0_l.
  replace (N.testbit (N.b2n b) (i + 1)) with false; [apply xorb_false_r|]. destruct b; [|symmetry; apply N.bits_0].
  change (N.b2n true) with 1. symmetry. apply N.bits_above_log2. change (N.log2 1) with 0. lia.
Qed.
Lemma odd_b2n c b : N.odd (N.lxor c (N.b2n b)) = xorb (N.odd c) b.
Proof. rewrite <- !N.bit0_odd, N.lxor_spec. destruct b; reflexivity. Qed.

Lemma remainder_step c b t : c < 2 ^ 32 ->
  (if xorb (N.odd c) b then xor_front generator (xor_front (tl (lsb_bits 32 c)) t) else xor_front (tl (lsb_bits 32 c)) t)
  = xor_front (lsb_bits 32 (crc_one c b)) t.
Proof.
  intros L. unfold crc_one, crc_bit. rewrite odd_b2n, div2_b2n.
  assert (E : forall t, xor_front (lsb_bits 32 (N.div2 c)) t = xor_front (tl (lsb_bits 32 c)) t).
  { intros u. rewrite high_zero by exact L. exact (xor_front_false 1 _ u). }
  destruct (xorb (N.odd c) b); [|symmetry; apply E].
  rewrite N.lxor_comm, xor_front_lxor, generator_bits, E. reflexivity.
Qed.

Lemma remainder_bits : forall bits c, c < 2 ^ 32 ->
  remainder (length bits) (xor_front (lsb_bits 32 c) (bits ++ repeat false 32)) = lsb_bits 32 (fold_left crc_one bits c).
Proof.
  induction bits as [|b bits IH]; intros c L.
  - cbn [length app fold_left]. transitivity (xor_front (lsb_bits 32 c) (repeat false 32)).
    + cbn [remainder]. destruct (xor_front _ _); reflexivity.
    + replace 32%nat with (length (lsb_bits 32 c)) at 2 by apply lsb_length. apply xor_front_zeros.
  - cbn [length app fold_left]. change (lsb_bits 32 c) with (N.odd c :: tl (lsb_bits 32 c)). cbn [xor_front remainder].
    rewrite remainder_step by exact L. apply IH, crc_one_bound, L.
Qed.

(** Eight bits *)
Lemma crc_bit_above c y : crc_bit (N.lxor c (N.double y)) = N.lxor (crc_bit c) y.
Proof.
  unfold crc_bit.
  assert (O : N.odd (N.lxor c (N.double y)) = N.odd c).
  { rewrite <- !N.bit0_odd, N.lxor_spec. rewrite N.double_spec, N.testbit_even_0. apply xorb_false_r. }
  assert (D : N.div2 (N.lxor c (N.double y)) = N.lxor (N.div2 c) y).
  { apply N.bits_inj. intros i. rewrite N.lxor_spec, !N.div2_spec, !N.shiftr_spec, N.lxor_spec by apply N.le_0_l. f_equal.
    rewrite N.double_spec, N.add_1_r. apply N.testbit_even_succ, N.le_0_l. }
  rewrite O, D. destruct (N.odd c); [|reflexivity]. rewrite !N.lxor_assoc. f_equal. apply N.lxor_comm.
Qed.
Lemma low_bit y : y = N.lxor (N.b2n (N.odd y)) (N.double (N.div2 y)).
Proof. destruct y as [|[p|p|]]; try reflexivity. Qed.
Fixpoint crc_bits_of (n : nat) (c : N) : N := match n with O => c | S n' => crc_bits_of n' (crc_bit c) end.
Lemma crc_bits_lsb n : forall c y, y < 2 ^ N.of_nat n -> crc_bits_of n (N.lxor c y) = fold_left crc_one (lsb_bits n y) c.
Proof.
  induction n as [|n IH]; intros c y L.
  - cbn. destruct y; [apply N.lxor_0_r|]. exfalso. cbn in L. lia.
  - cbn [crc_bits_of lsb_bits fold_left]. rewrite (low_bit y) at 1. rewrite <- N.lxor_assoc, crc_bit_above. apply IH.
    rewrite Nat2N.inj_succ, N.pow_succ_r' in L. rewrite N.div2_div. apply N.div_lt_upper_bound; [discriminate|exact L].
Qed.
Lemma crc_byte_bits c b : is_byte b -> crc_byte c b = fold_left crc_one (lsb_bits 8 b) c.
Proof. intros L. rewrite <- crc_bits_lsb by exact L. reflexivity. Qed.
Lemma crc_data_bits data : forall c, Forall is_byte data -> fold_left crc_byte data c = fold_left crc_one (bytes_bits data) c.
Proof.
  induction data as [|b data IH]; intros c F; inversion F; subst; [reflexivity|].
  cbn [fold_left bytes_bits flat_map]. rewrite fold_left_app, <- crc_byte_bits by assumption. apply IH. assumption.
Qed.
Lemma bytes_bits_length data : length (bytes_bits data) = (8 * length data)%nat.
Proof. induction data as [|b data IH]; [reflexivity|]. cbn [bytes_bits flat_map]. rewrite app_length, lsb_length. fold (bytes_bits data). rewrite IH. cbn [length]. lia. Qed.

Lemma lsb_negb n c : n = 32%nat -> map negb (lsb_bits n c) = lsb_bits n (N.lxor c 0xFFFFFFFF).
Proof.
  intros ->. rewrite !lsb_testbit, map_map. apply map_ext_in. intros i I. apply in_seq in I. rewrite N.lxor_spec.
  replace (N.testbit 0xFFFFFFFF (N.of_nat i)) with true; [symmetry; apply xorb_true_r|].
  destruct I as [_ I]. do 32 (destruct i as [|i]; [reflexivity|]). lia.
Qed.

Lemma crc_is_remainder data : Forall is_byte data -> lsb_bits 32 (crc32 data) = check_bits data.
Proof.
  intros F. unfold check_bits, crc32. rewrite <- lsb_negb by reflexivity. f_equal.
  rewrite crc_data_bits by exact F. rewrite <- remainder_bits by reflexivity. rewrite bytes_bits_length. reflexivity.
Qed.
Lemma crc_value data : Forall is_byte data -> crc32 data < 2 ^ 32 /\ lsb_bits 32 (crc32 data) = check_bits data.
Proof. intros F. split; [apply crc_bound, F|apply crc_is_remainder, F]. Qed.

(** ** Bursts: changes within 32 consecutive bits *)
Lemma lsb_of (x : list bool) : exists v, v < 2 ^ N.of_nat (length x) /\ lsb_bits (length x) v = x.
Proof.
  induction x as [|b x (v & L & E)]; [exists 0; split; reflexivity|].
  exists (if b then N.succ_double v else N.double v). cbn [length]. rewrite Nat2N.inj_succ, N.pow_succ_r'. cbn [lsb_bits]. split.
  - destruct b; [rewrite N.succ_double_spec|rewrite N.double_spec]; lia.
  - f_equal; [destruct b; destruct v; reflexivity|]. rewrite <- E at 2. f_equal. destruct b, v; reflexivity.
Qed.
Lemma crc_bits_of_inj n : forall c d, c < 2 ^ 32 -> d < 2 ^ 32 -> crc_bits_of n c = crc_bits_of n d -> c = d.
Proof.
  induction n as [|n IH]; intros c d Lc Ld E; [exact E|]. cbn [crc_bits_of] in E.
  apply crc_bit_inj; try assumption. apply IH; [apply crc_bit_bound; assumption|apply crc_bit_bound; assumption|exact E].
Qed.
Lemma crc_one_fold_bound bits : forall c, c < 2 ^ 32 -> fold_left crc_one bits c < 2 ^ 32.
Proof. induction bits as [|b bits IH]; intros c L; [exact L|]. cbn [fold_left]. apply IH, crc_one_bound, L. Qed.
Lemma crc_one_fold_inj bits : forall c d, c < 2 ^ 32 -> d < 2 ^ 32 -> fold_left crc_one bits c = fold_left crc_one bits d -> c = d.
Proof.
  induction bits as [|b bits IH]; intros c d Lc Ld E; [exact E|]. cbn [fold_left] in E.
  apply IH in E; [|apply crc_one_bound; assumption|apply crc_one_bound; assumption]. unfold crc_one in E.
  apply crc_bit_inj in E; [|apply lxor_bound; [assumption|destruct b; reflexivity]|apply lxor_bound; [assumption|destruct b; reflexivity]].
  rewrite (N.lxor_comm c), (N.lxor_comm d) in E. exact (lxor_inj_l _ _ _ E).
Qed.
Lemma crc_burst data data' pre x y post : Forall is_byte data -> Forall is_byte data' ->
  bytes_bits data = pre ++ x ++ post -> bytes_bits data' = pre ++ y ++ post ->
  length x = length y -> (length x <= 32)%nat -> crc32 data = crc32 data' -> x = y.
Proof.
  intros F F' E E' L L32 C. unfold crc32 in C. rewrite !(N.lxor_comm _ 0xFFFFFFFF) in C. apply lxor_inj_l in C.
  rewrite !crc_data_bits, E, E', !fold_left_app in C by assumption.
  set (c := fold_left crc_one pre _) in C. assert (Lc : c < 2 ^ 32) by (apply crc_one_fold_bound; reflexivity). clearbody c.
  apply crc_one_fold_inj in C; [|apply crc_one_fold_bound, Lc|apply crc_one_fold_bound, Lc].
  destruct (lsb_of x) as (v & Lv & Ev). destruct (lsb_of y) as (w & Lw & Ew).
  assert (W : 2 ^ N.of_nat (length x) <= 2 ^ 32) by (apply N.pow_le_mono_r; [discriminate|lia]).
  rewrite <- L in Lw, Ew. rewrite <- Ev, <- Ew in C. rewrite <- !crc_bits_lsb in C by assumption.
  apply crc_bits_of_inj in C; [|apply lxor_bound; lia|apply lxor_bound; lia].
  apply lxor_inj_l in C. rewrite <- Ev, <- Ew, C. reflexivity.
Qed.

Lemma png_burst cs c c' rest pre x y post :
  Forall good_chunk cs -> Forall (none_of [IEND]) cs -> good_chunk c ->
  Forall is_byte (ch_type c ++ ch_data c) -> Forall is_byte (ch_type c' ++ ch_data c') -> Forall is_byte rest ->
  length (ch_type c') = length (ch_type c) -> length (ch_data c') = length (ch_data c) ->
  bytes_bits (ch_type c ++ ch_data c) = pre ++ x ++ post -> bytes_bits (ch_type c' ++ ch_data c') = pre ++ y ++ post ->
  length x = length y -> (length x <= 32)%nat -> x <> y ->
  png_decode (signature ++ flat_map chunk_bytes cs ++ be4 (N.of_nat (length (ch_data c))) ++ ch_type c' ++ ch_data c'
              ++ be4 (crc32 (ch_type c ++ ch_data c)) ++ rest) = Panic.
Proof.
  intros G En [T L] F F' Fr Lt Ld B B' Lx L32 Nxy. unfold png_decode. rewrite strip_app, chunks_panic; try assumption; [reflexivity|].
  match goal with |- ?e = _ => destruct e as [[c2 rest']|] eqn:E end; [exfalso|reflexivity].
  pose proof (crc_bound _ F) as Cb.
  apply chunk_sound in E.
  2:{ apply Forall_app. split; [apply be4_bytes; change (2 ^ 32) with 4294967296; lia|]. rewrite app_assoc. apply Forall_app. split; [exact F'|].
      apply Forall_app. split; [apply be4_bytes, Cb|exact Fr]. }
  destruct E as [[T' L'] E]. unfold chunk_bytes in E. rewrite <- app_assoc in E. apply app_same_length in E; [|reflexivity].
  destruct E as [El E]. apply be4_inj in El. apply Nat2N.inj in El. rewrite <- !app_assoc in E.
  apply app_same_length in E; [|lia]. destruct E as [Et E]. apply app_same_length in E; [|lia]. destruct E as [Ed E].
  apply app_same_length in E; [|reflexivity]. destruct E as [Ec _]. apply be4_inj in Ec. rewrite <- Et, <- Ed in Ec.
  apply Nxy. exact (crc_burst _ _ pre x y post F F' B B' Lx L32 Ec).
Qed.
