(** * convertToPattern packs a matrix the way xor_char unpacks it *)
From Coq Require Import ZArith.
From Verif Require Import PrimFacts Str FontDefs SpecPaint SpecCodegen Codegen.

Lemma lor_1 x : N.lor (2 * x) 1 = 2 * x + 1.
Proof. destruct x; reflexivity. Qed.

Lemma shiftl_1 x : N.shiftl x 1 = 2 * x.
Proof. rewrite N.shiftl_mul_pow2. change (2 ^ 1) with 2. lia. Qed.

(** ** The packed stream of pixels *)
Section Stream.
  Variable bit : N -> bool.
  Variable hdr : N.

  (** After k pixels *)
  Definition packed (k : N) (st : packing) : Prop :=
    let '(pattern, buf, flushed) := st in
    exists ws, pattern = hdr :: ws /\ length ws = N.to_nat (k / 32) /\
      Forall (fun w => w < 2 ^ 32) ws /\
      (forall n, n < 32 * (k / 32) ->
         N.testbit (nth (N.to_nat (n / 32)) ws 0) (31 - n mod 32) = bit n) /\
      buf < 2 ^ (k mod 32) /\
      (forall j, j < k mod 32 -> N.testbit buf (k mod 32 - 1 - j) = bit (32 * (k / 32) + j)) /\
      flushed = (0 <? k) && (k mod 32 =? 0).

  Lemma packed_0 : packed 0 ([hdr], 0, false).
  Proof.
    exists []. repeat split; try reflexivity; try constructor; intros; exfalso.
    - change (0 / 32) with 0 in *. lia.
    - change (0 mod 32) with 0 in *. lia.
  Qed.

  (** One more pixel *)
  Definition push (k : N) (st : packing) : packing :=
    let '(pattern, buf, _) := st in
    let buf := if bit k then N.lor (w32 (N.shiftl buf 1)) 1 else w32 (N.shiftl buf 1) in
    if k mod 32 =? 31 then (pattern ++ [buf], 0, true) else (pattern, buf, false).

  Lemma packed_push k st : packed k st -> packed (k + 1) (push k st).
  Proof.
    destruct st as [[pattern buf] fl].
    intros (ws & -> & Hlen & Hw & Hbits & Hbuf & Hlast & _).
    unfold push.
    assert (Hb31 : 2 ^ (k mod 32) <= 2 ^ 31) by (apply N.pow_le_mono_r; lia).
    change (2 ^ 31) with 2147483648 in Hb31.
    rewrite shiftl_1, w32_small by (change (2 ^ 32) with 4294967296; lia).
    set (buf' := if bit k then N.lor (2 * buf) 1 else 2 * buf).
    assert (Ebuf : buf' = 2 * buf + N.b2n (bit k)).
    { unfold buf'. destruct (bit k); [rewrite lor_1|]; simpl N.b2n; lia. }
    assert (Hlt : buf' < 2 ^ (k mod 32 + 1)).
    { rewrite Ebuf, N.pow_add_r. change (2 ^ 1) with 2. destruct (bit k); simpl N.b2n; lia. }
    assert (Hbit : forall j, j < k mod 32 + 1 ->
      N.testbit buf' (k mod 32 - j) = bit (32 * (k / 32) + j)).
    { intros j Hj. rewrite Ebuf.
      destruct (N.eq_dec j (k mod 32)) as [->|Hne].
      - rewrite N.sub_diag. rewrite N.testbit_0_r. f_equal. lia.
      - replace (k mod 32 - j) with (N.succ (k mod 32 - 1 - j)) by lia.
        rewrite N.testbit_succ_r. apply Hlast. lia. }
    clearbody buf'.
    destruct (N.eqb_spec (k mod 32) 31) as [E|E].
    - assert (D : (k + 1) / 32 = k / 32 + 1) by lia.
      assert (M : (k + 1) mod 32 = 0) by lia.
      exists (ws ++ [buf']). rewrite D, M. repeat split.
      + rewrite app_length, Hlen; simpl. lia.
      + apply Forall_app; split; [assumption|]. constructor; [|constructor].
        rewrite E in Hlt. exact Hlt.
      + intros n Hn. destruct (N.lt_ge_cases n (32 * (k / 32))) as [Hl|Hl].
        * rewrite app_nth1 by lia. apply Hbits; exact Hl.
        * rewrite app_nth2 by lia. rewrite Hlen.
          replace (N.to_nat (n / 32) - N.to_nat (k / 32))%nat with O by lia. cbn [nth].
          specialize (Hbit (n - 32 * (k / 32))).
          replace (31 - n mod 32) with (k mod 32 - (n - 32 * (k / 32))) by lia.
          rewrite Hbit by lia. f_equal. lia.
      + intros j Hj. lia.
      + symmetry. apply andb_true_intro; split; [apply N.ltb_lt; lia|reflexivity].
    - assert (D : (k + 1) / 32 = k / 32) by lia.
      assert (M : (k + 1) mod 32 = k mod 32 + 1) by lia.
      exists ws. rewrite D, M. repeat split; try assumption.
      + intros j Hj. replace (k mod 32 + 1 - 1 - j) with (k mod 32 - j) by lia. apply Hbit. exact Hj.
      + symmetry. apply andb_false_intro2. apply N.eqb_neq. lia.
  Qed.
End Stream.

(** ** Matrices *)
Lemma rect_row m w h r : rect m w h -> (r < h)%nat -> length (nth r m []) = w.
Proof. intros [Hl Hf] Hr. apply (Forall_nth_in (fun row => length row = w)); [exact Hf|lia]. Qed.

Lemma rect_pat m w h : rect m w h -> (0 < w)%nat -> (0 < h)%nat ->
  N.of_nat w < 2 ^ 32 -> N.of_nat h < 2 ^ 32 -> pat_w m = N.of_nat w /\ pat_h m = N.of_nat h.
Proof.
  intros [Hl Hf] Hw Hh Lw Lh. unfold pat_w, pat_h.
  assert (first_len m = w) as ->.
  { destruct m as [|row t]; simpl in *; [lia|]. inversion Hf; assumption. }
  rewrite Hl. destruct w; [lia|]. rewrite !w32_small by assumption. split; reflexivity.
Qed.

(** The pixel stream: rows in order, each row from right to left *)
Definition stream (m : matrix) (w : N) (n : N) : bool :=
  is_set m (N.to_nat (n / w)) (N.to_nat (w - 1 - n mod w)).

Lemma div_row y x w : x < w -> (y * w + x) / w = y.
Proof. intros H. rewrite N.div_add_l by lia. rewrite N.div_small by assumption. lia. Qed.
Lemma mod_row y x w : x < w -> (y * w + x) mod w = x.
Proof. intros H. rewrite N.add_comm, N.mod_add by lia. apply N.mod_small; assumption. Qed.

Lemma w32_mod32 x : w32 x mod 32 = x mod 32.
Proof. rewrite w32_mod. change (2 ^ 32) with 4294967296. lia. Qed.

Lemma pack_pixel_push m w h y x hdr st :
  rect m w h -> y < N.of_nat h -> x < N.of_nat w ->
  packed (stream m (N.of_nat w)) hdr (y * N.of_nat w + x) st ->
  exists st', pack_pixel m (N.of_nat w) y x st = Ret st' /\
    packed (stream m (N.of_nat w)) hdr (y * N.of_nat w + x + 1) st'.
Proof.
  intros R Hy Hx P. pose proof (packed_push _ _ _ _ P) as P'.
  eexists; split; [|exact P'].
  destruct st as [[pattern buf] fl]. unfold pack_pixel, push.
  assert (Hlen : length m = h) by apply R.
  rewrite (aget_ok m y []) by (rewrite Hlen; exact Hy). cbn [bind].
  rewrite (aget_ok _ _ 0%Z) by (rewrite (rect_row m w h) by (assumption || lia); lia). cbn [bind].
  unfold stream, is_set. rewrite div_row, mod_row by assumption. rewrite w32_mod32.
  destruct (_ <? _)%Z; destruct (_ =? 31); reflexivity.
Qed.

Lemma pack_loop_ok m w h hdr :
  rect m w h ->
  exists st, pack_loop m (N.of_nat w) (N.of_nat h) ([hdr], 0, false) = Ret st /\
    packed (stream m (N.of_nat w)) hdr (N.of_nat w * N.of_nat h) st.
Proof.
  intros R. unfold pack_loop.
  destruct (for_range_inv
    (fun y st => packed (stream m (N.of_nat w)) hdr (y * N.of_nat w) st)
    (fun y => for_range 0 (N.of_nat w) (fun x => pack_pixel m (N.of_nat w) y x))
    0 (N.of_nat h) ([hdr], 0, false)) as (st & E & P).
  - lia.
  - rewrite N.mul_0_l. apply packed_0.
  - intros y st Hy P.
    destruct (for_range_inv
      (fun x st => packed (stream m (N.of_nat w)) hdr (y * N.of_nat w + x) st)
      (fun x => pack_pixel m (N.of_nat w) y x) 0 (N.of_nat w) st) as (st' & E' & P').
    + lia.
    + rewrite N.add_0_r. exact P.
    + intros x s Hx Ps. rewrite N.add_assoc.
      apply (pack_pixel_push m w h); [exact R|lia|lia|exact Ps].
    + exists st'. split; [exact E'|].
      replace ((y + 1) * N.of_nat w) with (y * N.of_nat w + N.of_nat w) by lia. exact P'.
  - exists st. split; [exact E|]. rewrite N.mul_comm. exact P.
Qed.

(** ** The finished pattern *)
Record packed_matrix (m : matrix) (w h : nat) (hdr : N) (words : list N) : Prop := {
  pm_header : nth 0 words 0 = hdr;
  pm_length : N.of_nat (length words) = 1 + (N.of_nat w * N.of_nat h + 31) / 32;
  pm_u32 : Forall (fun v => v < 2 ^ 32) (tl words);
  pm_bits : forall n, n < N.of_nat w * N.of_nat h ->
    N.testbit (nth (S (N.to_nat (n / 32))) words 0) (31 - n mod 32) = stream m (N.of_nat w) n;
  pm_padding : forall n, N.of_nat w * N.of_nat h <= n -> n / 32 < (N.of_nat w * N.of_nat h + 31) / 32 ->
    N.testbit (nth (S (N.to_nat (n / 32))) words 0) (31 - n mod 32) = false
}.

Lemma convert_ok m w h y :
  rect m w h -> (0 < w)%nat -> (0 < h)%nat -> N.of_nat w < 2 ^ 32 -> N.of_nat h < 2 ^ 32 ->
  exists words, convert_to_pattern m y = Ret words /\
    packed_matrix m w h (pat_header (N.of_nat w) (N.of_nat h) y) words.
Proof.
  intros R Hw Hh Lw Lh. unfold convert_to_pattern.
  destruct (rect_pat m w h R Hw Hh Lw Lh) as [-> ->].
  set (hdr := pat_header _ _ _).
  destruct (pack_loop_ok m w h hdr R) as ([[pattern buf] fl] & -> & ws & -> & Hlen & Hw32 & Hbits & Hbuf & Hlast & ->).
  cbn [bind].
  set (k := N.of_nat w * N.of_nat h) in *.
  assert (Hk : 0 < k) by (unfold k; nia).
  destruct (N.ltb_spec 0 k) as [_|]; [|lia]. cbn [andb].
  destruct (N.eqb_spec (k mod 32) 0) as [E|E].
  - exists (hdr :: ws). split; [reflexivity|]. split; cbn [nth tl length]; fold k.
    + reflexivity.
    + rewrite Nat2N.inj_succ, Hlen. lia.
    + exact Hw32.
    + intros n Hn. apply Hbits. lia.
    + intros n H1 H2. lia.
  - rewrite w32_mod32. eexists. split; [reflexivity|].
    assert (Hsh : N.shiftl buf (32 - k mod 32) < 2 ^ 32).
    { rewrite N.shiftl_mul_pow2.
      replace (2 ^ 32) with (2 ^ (k mod 32) * 2 ^ (32 - k mod 32))
        by (rewrite <- N.pow_add_r; f_equal; lia).
      apply N.mul_lt_mono_pos_r; [|exact Hbuf]. apply N.neq_0_lt_0, N.pow_nonzero. discriminate. }
    rewrite w32_small by exact Hsh.
    split; cbn [nth tl length app]; fold k.
    + reflexivity.
    + rewrite app_length, Hlen. cbn [length]. lia.
    + apply Forall_app; split; [exact Hw32|]. constructor; [exact Hsh|constructor].
    + intros n Hn. destruct (N.lt_ge_cases n (32 * (k / 32))) as [Hl|Hl].
      * rewrite app_nth1 by lia. apply Hbits; exact Hl.
      * rewrite app_nth2 by lia. rewrite Hlen.
        replace (N.to_nat (n / 32) - N.to_nat (k / 32))%nat with O by lia. cbn [nth].
        rewrite shiftl_testbit.
        specialize (Hlast (n - 32 * (k / 32)) ltac:(lia)).
        replace (32 * (k / 32) + (n - 32 * (k / 32))) with n in Hlast by lia.
        rewrite <- Hlast.
        destruct (N.leb_spec (32 - k mod 32) (31 - n mod 32)); [|lia].
        cbn [andb]. f_equal. lia.
    + intros n H1 H2. rewrite app_nth2 by lia. rewrite Hlen.
      replace (N.to_nat (n / 32) - N.to_nat (k / 32))%nat with O by lia. cbn [nth].
      rewrite shiftl_testbit. destruct (N.leb_spec (32 - k mod 32) (31 - n mod 32)); [lia|reflexivity].
Qed.

(** ** Reading the pattern back *)
Lemma header_fields w h y : w < 256 -> h < 256 -> y < 256 ->
  pat_header w h y = w * 65536 + h * 256 + y.
Proof.
  intros Hw Hh Hy. unfold pat_header.
  rewrite !N.shiftl_mul_pow2. change (2 ^ 16) with 65536. change (2 ^ 8) with 256.
  rewrite !w32_small by (change (2 ^ 32) with 4294967296; lia).
  assert (D : forall a b k, b < 2 ^ k -> N.lor (a * 2 ^ k) b = a * 2 ^ k + b).
  { intros a b k Hb. rewrite <- N.shiftl_mul_pow2. apply N.bits_inj. intros i.
    rewrite N.lor_spec, shiftl_testbit.
    destruct (N.leb_spec k i) as [Hi|Hi]; cbn [andb].
    - rewrite (testbit_high b k i Hb Hi), orb_false_r.
      rewrite N.shiftl_mul_pow2.
      replace i with (i - k + k) at 2 by lia.
      rewrite <- N.div_pow2_bits. f_equal.
      rewrite N.div_add_l by (apply N.pow_nonzero; discriminate).
      rewrite N.div_small by exact Hb. lia.
    - rewrite N.shiftl_mul_pow2.
      rewrite <- (N.mod_pow2_bits_low (a * 2 ^ k + b) k i Hi).
      rewrite N.add_comm, N.mod_add by (apply N.pow_nonzero; discriminate).
      rewrite N.mod_small by exact Hb. reflexivity. }
  change 65536 with (2 ^ 16). change 256 with (2 ^ 8).
  rewrite (D w (h * 2 ^ 8) 16) by (change (2 ^ 16) with 65536; change (2 ^ 8) with 256; lia).
  replace (w * 2 ^ 16 + h * 2 ^ 8) with ((w * 2 ^ 8 + h) * 2 ^ 8)
    by (change (2 ^ 16) with 65536; change (2 ^ 8) with 256; lia).
  apply D. exact Hy.
Qed.

(** A font that holds the pattern shows the matrix *)
Lemma packed_shows f off m w h y words :
  packed_matrix m w h (pat_header (N.of_nat w) (N.of_nat h) y) words ->
  (0 < w < 256)%nat -> (0 < h < 256)%nat -> y < 256 -> data_at f off words ->
  shows f off m w h y.
Proof.
  intros [Hh Hl Hu Hb _] Lw Lh Ly D.
  assert (Hd : font_word f off = N.of_nat w * 65536 + N.of_nat h * 256 + y).
  { rewrite <- header_fields by lia. rewrite <- Hh.
    rewrite <- (D O) by lia. f_equal. lia. }
  assert (Ew : gl_w f off = N.of_nat w) by (unfold gl_w; rewrite Hd; lia).
  split; [exact Ew|unfold gl_h; rewrite Hd; lia|unfold gl_y; rewrite Hd; lia|].
  intros r c Hr Hc. unfold glyph_pixel, stream_bit. rewrite Ew.
  set (n := N.of_nat r * N.of_nat w + (N.of_nat w - 1 - N.of_nat c)).
  assert (Hn : n < N.of_nat w * N.of_nat h) by (unfold n; nia).
  specialize (Hb n Hn).
  replace (off + 1 + n / 32) with (off + N.of_nat (S (N.to_nat (n / 32)))) by lia.
  rewrite D by lia. rewrite Hb. unfold stream, n.
  rewrite div_row, mod_row by lia. f_equal; lia.
Qed.

Lemma convert_shows f off m w h y :
  rect m w h -> (0 < w < 256)%nat -> (0 < h < 256)%nat -> y < 256 ->
  exists words, convert_to_pattern m y = Ret words /\
    N.of_nat (length words) = 1 + (N.of_nat w * N.of_nat h + 31) / 32 /\
    nth 0 words 0 = N.of_nat w * 65536 + N.of_nat h * 256 + y /\
    (data_at f off words -> shows f off m w h y).
Proof.
  intros R Lw Lh Ly.
  destruct (convert_ok m w h y R) as (words & E & P); try (change (2 ^ 32) with 4294967296; lia).
  exists words. split; [exact E|]. split; [apply P|]. split.
  - rewrite <- header_fields by lia. apply P.
  - intros D. apply (packed_shows f off m w h y words); assumption.
Qed.
