(** * The web demo *)
From Coq Require Import ZArith.
From Verif Require Import Prim PrimFacts Str Geom FontDefs Blit Demo Spec SpecWasm Wasm FbFacts.

(** ** Words from bytes *)
Lemma int32_bit z n : (0 <= n < 32)%Z -> Z.testbit (to_int32 z) n = Z.testbit z n.
Proof.
  intros H. unfold to_int32.
  assert (E : forall k, Z.testbit (z mod 2 ^ 32 - k * 2 ^ 32) n = Z.testbit z n).
  { intros k. rewrite <- (Z.mod_pow2_bits_low (z mod 2 ^ 32 - k * 2 ^ 32) 32 n) by lia.
    rewrite Zminus_mod, Z.mod_mul, Z.sub_0_r, !Zmod_mod by lia.
    apply Z.mod_pow2_bits_low. lia. }
  destruct (2 ^ 31 <=? z mod 2 ^ 32)%Z.
  - rewrite <- (E 1%Z). f_equal. 
  - rewrite <- (E 0%Z). f_equal. lia.
Qed.

Lemma byte_bits w k n : k <= 24 ->
  Z.testbit (Z.of_N (N.land (N.shiftr w k) 0xff)) (Z.of_N n) = (n <? 8) && N.testbit w (n + k).
Proof.
  intros Hk. rewrite Z.testbit_of_N, N.land_spec, N.shiftr_spec'.
  change 0xff with (N.ones 8). destruct (N.ltb_spec n 8).
  - rewrite N.ones_spec_low by assumption. rewrite andb_true_r. reflexivity.
  - rewrite N.ones_spec_high by assumption. apply andb_false_r.
Qed.

Lemma shifted_byte w k n : k <= 24 -> n < 32 ->
  Z.testbit (js_shl (Z.of_N (N.land (N.shiftr w k) 0xff)) (Z.of_N k)) (Z.of_N n)
  = (k <=? n) && (n <? k + 8) && N.testbit w n.
Proof.
  intros Hk Hn. unfold js_shl. rewrite int32_bit by lia.
  destruct (N.leb_spec k n) as [L|L].
  - rewrite Z.shiftl_spec by lia. rewrite int32_bit by lia.
    replace (Z.of_N n - Z.of_N k)%Z with (Z.of_N (n - k)) by lia.
    rewrite byte_bits by assumption. replace (n - k + k) with n by lia.
    cbn [andb]. f_equal. lia.
  - rewrite Z.shiftl_spec_low by lia. reflexivity.
Qed.

Lemma word_bit w n : n < 32 ->
  Z.testbit (js_word (Z.of_N (N.land w 0xff)) (Z.of_N (N.land (N.shiftr w 8) 0xff))
               (Z.of_N (N.land (N.shiftr w 16) 0xff)) (Z.of_N (N.land (N.shiftr w 24) 0xff))) (Z.of_N n)
  = N.testbit w n.
Proof.
  intros Hn. unfold js_word, js_or.
  repeat (rewrite ?Z.lor_spec, ?int32_bit by lia).
  change (js_shl (Z.of_N (N.land (N.shiftr w 8) 0xff)) 8) with (js_shl (Z.of_N (N.land (N.shiftr w 8) 0xff)) (Z.of_N 8)).
  change (js_shl (Z.of_N (N.land (N.shiftr w 16) 0xff)) 16) with (js_shl (Z.of_N (N.land (N.shiftr w 16) 0xff)) (Z.of_N 16)).
  assert (E24 : js_shr0 (Z.of_N (N.land (N.shiftr w 24) 0xff)) = Z.of_N (N.land (N.shiftr w 24) 0xff)).
  { unfold js_shr0. apply Z.mod_small.
    assert (N.land (N.shiftr w 24) 0xff < 256); [|change (2 ^ 32)%Z with 4294967296%Z; lia].
    change 0xff with (N.ones 8). rewrite N.land_ones. apply N.mod_lt. discriminate. }
  rewrite E24.
  change (js_shl (Z.of_N (N.land (N.shiftr w 24) 0xff)) 24) with (js_shl (Z.of_N (N.land (N.shiftr w 24) 0xff)) (Z.of_N 24)).
  rewrite !shifted_byte by lia.
  assert (E0 : Z.testbit (Z.of_N (N.land w 0xff)) (Z.of_N n) = (n <? 8) && N.testbit w n).
  { rewrite <- (N.shiftr_0_r w) at 1. rewrite byte_bits by lia. rewrite N.add_0_r. reflexivity. }
  rewrite E0. destruct (N.testbit w n); rewrite ?andb_true_r, ?andb_false_r; [|reflexivity].
  lia.
Qed.

Lemma fb_pixel_bit w n : n < 32 ->
  (js_and 1 (js_sar (js_word (Z.of_N (N.land w 0xff)) (Z.of_N (N.land (N.shiftr w 8) 0xff))
               (Z.of_N (N.land (N.shiftr w 16) 0xff)) (Z.of_N (N.land (N.shiftr w 24) 0xff))) (Z.of_N n)) =? 1)%Z
  = N.testbit w n.
Proof.
  intros Hn. rewrite <- word_bit by assumption. set (z := js_word _ _ _ _).
  unfold js_and. change (to_int32 1) with (Z.ones 1).
  rewrite Z.land_comm, Z.land_ones by lia.
  assert (E : ((to_int32 (js_sar z (Z.of_N n))) mod 2 ^ 1 = Z.b2z (Z.testbit z (Z.of_N n)))%Z).
  { change (2 ^ 1)%Z with 2%Z. rewrite <- Z.bit0_mod, int32_bit by lia.
    unfold js_sar. rewrite Z.shiftr_spec by lia. rewrite Z.add_0_l, int32_bit by lia. reflexivity. }
  rewrite E. destruct (Z.testbit z (Z.of_N n)); reflexivity.
Qed.

(** ** Bytes of the frame buffer *)
Lemma memory_nth fb i j : (i < length fb)%nat -> (j < 4)%nat ->
  nth (4 * i + j) (memory_from_ptr fb) 0 = nth j (le_bytes (nth i fb 0)) 0.
Proof.
  revert i; induction fb as [|w t IH]; intros i Hi Hj; simpl in Hi; [lia|].
  destruct i as [|i].
  - destruct j as [|[|[|[|j]]]]; try lia; reflexivity.
  - replace (4 * S i + j)%nat with (4 + (4 * i + j))%nat by lia. apply IH; lia.
Qed.

Lemma memory_length fb : length (memory_from_ptr fb) = (4 * length fb)%nat.
Proof. induction fb as [|w t IH]; simpl in *; lia. Qed.

Lemma frame_byte fb line w j : is_frbuf fb -> line < 536 -> w < 11 -> j < 4 ->
  byte_at (fd_bytes (frame_buf fb)) (line * 11 * 4 + w * 4 + j)
  = Z.of_N (nth (N.to_nat j) (le_bytes (nth (N.to_nat (line * 11 + w)) fb 0)) 0).
Proof.
  intros [Hl _] Ln Hw Hj. unfold byte_at, frame_buf. cbn [fd_bytes].
  change FRAME_BUF_SIZE with 5896 in Hl.
  rewrite firstn_all2 by (rewrite memory_length; lia).
  replace (N.to_nat (line * 11 * 4 + w * 4 + j)) with (4 * N.to_nat (line * 11 + w) + N.to_nat j)%nat by lia.
  rewrite memory_nth by lia. reflexivity.
Qed.

(** ** Writing *)
Lemma set_data_length data i v : length (set_data data i v) = length data.
Proof.
  unfold set_data. destruct (N.ltb_spec i (N.of_nat (length data))); [|reflexivity].
  rewrite app_length. cbn [length]. rewrite firstn_length, skipn_length. lia.
Qed.

Lemma set_data_nth data i v k : k < N.of_nat (length data) ->
  nth (N.to_nat k) (set_data data i v) 0 = if i =? k then v else nth (N.to_nat k) data 0.
Proof.
  intros Hk. unfold set_data. destruct (N.ltb_spec i (N.of_nat (length data))).
  - assert (Lf : length (firstn (N.to_nat i) data) = N.to_nat i) by (rewrite firstn_length; lia).
    destruct (N.eqb_spec i k) as [->|Ne].
    + rewrite app_nth2 by lia. rewrite Lf, Nat.sub_diag. reflexivity.
    + destruct (N.lt_ge_cases k i).
      * rewrite app_nth1 by lia. rewrite <- (firstn_skipn (N.to_nat i) data) at 2. rewrite app_nth1 by lia. reflexivity.
      * rewrite app_nth2 by lia. rewrite Lf.
        replace (N.to_nat k - N.to_nat i)%nat with (S (N.to_nat k - S (N.to_nat i))) by lia. cbn [nth].
        rewrite <- (firstn_skipn (S (N.to_nat i)) data) at 2.
        assert (Lf' : length (firstn (S (N.to_nat i)) data) = S (N.to_nat i)) by (rewrite firstn_length; lia).
        rewrite app_nth2 by lia. rewrite Lf'. reflexivity.
  - destruct (N.eqb_spec i k); [lia|reflexivity].
Qed.

(** A loop keeps an invariant *)
Lemma loop_inv {S} (P : N -> S -> Prop) (body : N -> S -> S) : forall n lo st,
  P lo st ->
  (forall i st, lo <= i < lo + N.of_nat n -> P i st -> P (i + 1) (body i st)) ->
  P (lo + N.of_nat n) (loop n lo body st).
Proof.
  induction n as [|n IH]; intros lo st H0 Hs; cbn [loop].
  - rewrite N.add_0_r. exact H0.
  - replace (lo + N.of_nat (Datatypes.S n)) with (lo + 1 + N.of_nat n) by lia.
    apply IH.
    + apply Hs; [lia|exact H0].
    + intros i st' Hi. apply Hs. lia.
Qed.

(** ** The image *)

(** Pixels of the lines before [line], and the first n of [line], are right *)
Definition upto (fb : frbuf) (line n : N) (img : list N) : Prop :=
  N.of_nat (length img) = 4 * IMG /\
  forall x y, x < 336 -> y < 536 -> y < line \/ (y = line /\ x < n) ->
    quad img (y * 336 + x) = right_pixel fb x y.

Lemma paint_bit_quad d line w word bit img p :
  N.of_nat (length img) = 4 * IMG -> p < IMG ->
  quad (paint_bit d line w word bit img) p =
  if line * fd_px_per_line d + w * 32 + bit =? p
  then (0x33, 0x33, 0x33, if (js_and 1 (js_sar word (Z.of_N bit)) =? 1)%Z then 0 else 0xff)
  else quad img p.
Proof.
  intros Hl Hp. unfold paint_bit, quad.
  set (q := line * fd_px_per_line d + w * 32 + bit).
  set (v := if (_ =? 1)%Z then 0 else 0xff).
  rewrite !set_data_nth by (rewrite ?set_data_length; lia).
  destruct (N.eqb_spec q p) as [E|E].
  - subst p.
    replace (q * 4 + 3 =? 4 * q) with false by lia. replace (q * 4 + 2 =? 4 * q) with false by lia.
    replace (q * 4 + 1 =? 4 * q) with false by lia. replace (q * 4 =? 4 * q) with true by lia.
    replace (q * 4 + 3 =? 4 * q + 1) with false by lia. replace (q * 4 + 2 =? 4 * q + 1) with false by lia.
    replace (q * 4 + 1 =? 4 * q + 1) with true by lia.
    replace (q * 4 + 3 =? 4 * q + 2) with false by lia. replace (q * 4 + 2 =? 4 * q + 2) with true by lia.
    replace (q * 4 + 3 =? 4 * q + 3) with true by lia. reflexivity.
  - replace (q * 4 + 3 =? 4 * p) with false by lia. replace (q * 4 + 2 =? 4 * p) with false by lia.
    replace (q * 4 + 1 =? 4 * p) with false by lia. replace (q * 4 =? 4 * p) with false by lia.
    replace (q * 4 + 3 =? 4 * p + 1) with false by lia. replace (q * 4 + 2 =? 4 * p + 1) with false by lia.
    replace (q * 4 + 1 =? 4 * p + 1) with false by lia. replace (q * 4 =? 4 * p + 1) with false by lia.
    replace (q * 4 + 3 =? 4 * p + 2) with false by lia. replace (q * 4 + 2 =? 4 * p + 2) with false by lia.
    replace (q * 4 + 1 =? 4 * p + 2) with false by lia. replace (q * 4 =? 4 * p + 2) with false by lia.
    replace (q * 4 + 3 =? 4 * p + 3) with false by lia. replace (q * 4 + 2 =? 4 * p + 3) with false by lia.
    replace (q * 4 + 1 =? 4 * p + 3) with false by lia. replace (q * 4 =? 4 * p + 3) with false by lia.
    reflexivity.
Qed.

Lemma paint_bit_length d line w word bit img :
  length (paint_bit d line w word bit img) = length img.
Proof. unfold paint_bit. rewrite !set_data_length. reflexivity. Qed.

Lemma paint_word_upto fb line w img : is_frbuf fb -> line < 536 -> w < 11 ->
  upto fb line (32 * w) img -> upto fb line (32 * (w + 1)) (paint_word (frame_buf fb) line w img).
Proof.
  intros Hfb Hline Hw H. unfold paint_word.
  change (fd_px_per_line (frame_buf fb)) with 336. change (fd_words_per_line (frame_buf fb)) with 11.
  destruct (N.ltb_spec (w * 32) 336); [|lia].
  pose proof (frame_byte fb line w 0 Hfb Hline Hw ltac:(lia)) as B0. rewrite N.add_0_r in B0.
  rewrite B0. rewrite !frame_byte by (assumption || lia).
  set (wd := nth (N.to_nat (line * 11 + w)) fb 0).
  change (nth (N.to_nat 0) (le_bytes wd) 0) with (N.land wd 0xff).
  change (nth (N.to_nat 1) (le_bytes wd) 0) with (N.land (N.shiftr wd 8) 0xff).
  change (nth (N.to_nat 2) (le_bytes wd) 0) with (N.land (N.shiftr wd 16) 0xff).
  change (nth (N.to_nat 3) (le_bytes wd) 0) with (N.land (N.shiftr wd 24) 0xff).
  set (word := js_word _ _ _ _).
  pose proof (loop_inv (fun bit img => upto fb line (32 * w + bit) img)
                (paint_bit (frame_buf fb) line w word) 32 0 img) as L.
  cbv beta in L. replace (32 * (w + 1)) with (32 * w + (0 + N.of_nat 32)) by lia.
  apply L; clear L.
  - rewrite N.add_0_r. exact H.
  - intros bit img' Hb [Hl Hq]. split; [rewrite paint_bit_length; exact Hl|].
    intros x y Hx Hy Hxy. rewrite paint_bit_quad by (try exact Hl; unfold IMG; lia).
    change (fd_px_per_line (frame_buf fb)) with 336.
    destruct (N.eqb_spec (line * 336 + w * 32 + bit) (y * 336 + x)) as [E|E].
    + destruct Hxy as [Hxy|[-> Hxy]]; [lia|].
      assert (x = 32 * w + bit) by lia. subst x.
      unfold right_pixel, word. rewrite fb_pixel_bit by lia.
      unfold pixel. change WORDS_PER_LINE with 11.
      replace ((32 * w + bit) / 32) with w by lia. replace ((32 * w + bit) mod 32) with bit by lia.
      reflexivity.
    + apply Hq; try assumption. lia.
Qed.

Lemma repaint_upto fb img : is_frbuf fb -> N.of_nat (length img) = 4 * IMG ->
  upto fb 536 0 (repaint fb img).
Proof.
  intros Hfb Hl. unfold repaint. change (fd_lines (frame_buf fb)) with 536.
  change (fd_words_per_line (frame_buf fb)) with 11.
  pose proof (loop_inv (fun line img => upto fb line 0 img)
    (fun line => loop (N.to_nat 11) 0 (fun w => paint_word (frame_buf fb) line w)) (N.to_nat 536) 0 img) as L.
  cbv beta in L. apply L; clear L.
  - split; [exact Hl|]. intros; lia.
  - intros line img' Hline H.
    pose proof (loop_inv (fun w img => upto fb line (32 * w) img)
      (fun w => paint_word (frame_buf fb) line w) (N.to_nat 11) 0 img') as L.
    cbv beta in L. destruct L as [Hl' Hq].
    + exact H.
    + intros w img'' Hw H''. apply paint_word_upto; try assumption; lia.
    + split; [exact Hl'|]. intros x y Hx Hy Hxy. apply Hq; try assumption. lia.
Qed.

Lemma repaint_exact fb img : is_frbuf fb -> is_image img ->
  is_image (repaint fb img) /\
  forall x y, x < 336 -> y < 536 -> canvas_pixel (repaint fb img) x y = right_pixel fb x y.
Proof.
  intros Hfb Hi. destruct (repaint_upto fb img Hfb Hi) as [Hl Hq]. split; [exact Hl|].
  intros x y Hx Hy. apply Hq; auto.
Qed.

(** Two images of the same size with the same pixels are the same *)
Lemma image_ext a b : is_image a -> is_image b ->
  (forall x y, x < 336 -> y < 536 -> canvas_pixel a x y = canvas_pixel b x y) -> a = b.
Proof.
  unfold is_image. intros Ha Hb H. apply (nth_ext a b 0 0); [lia|]. intros n Hn.
  pose (p := N.of_nat n / 4). assert (Hp : p < IMG) by (unfold p; lia).
  assert (Hx : p mod 336 < 336) by lia. assert (Hy : p / 336 < 536) by (unfold IMG in Hp; lia).
  specialize (H _ _ Hx Hy). unfold canvas_pixel in H.
  replace (p / 336 * 336 + p mod 336) with p in H by lia.
  unfold quad in H. injection H as H0 H1 H2 H3.
  assert (E : N.of_nat n = 4 * p \/ N.of_nat n = 4 * p + 1 \/ N.of_nat n = 4 * p + 2 \/ N.of_nat n = 4 * p + 3)
    by (unfold p; lia).
  destruct E as [E|[E|[E|E]]]; rewrite <- E, Nat2N.id in *; assumption.
Qed.
