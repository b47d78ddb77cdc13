(** * The decoder of PNG files reads the format: proofs *)
From Coq Require Import ZArith.
From Verif Require Import Prim PrimFacts Str FontDefs Codegen CodegenText Png SpecDeflate SpecPng HuffProofs InflateProofs.

(** ** Bytes *)
Ltac divs := zify; Z.div_mod_to_equations; lia.
Lemma be32_be4 v : match be4 v with [a; b; c; d] => be32 a b c d = v | _ => False end.
Proof. unfold be4, be32. change (2 ^ 24) with 16777216. change (2 ^ 16) with 65536. change (2 ^ 8) with 256. divs. Qed.
Lemma be4_be32 a b c d : is_byte a -> is_byte b -> is_byte c -> is_byte d -> be4 (be32 a b c d) = [a; b; c; d].
Proof.
  unfold is_byte, be4, be32. change (2 ^ 24) with 16777216. change (2 ^ 16) with 65536. change (2 ^ 8) with 256.
  intros. repeat f_equal; divs.
Qed.
Lemma be4_inj v w : be4 v = be4 w -> v = w.
Proof. intros E. pose proof (be32_be4 v) as V. pose proof (be32_be4 w) as W. rewrite E in V. unfold be4 in *. congruence. Qed.

Lemma byte_bits_lsb b : byte_bits b = lsb_bits 8 b.
Proof.
  unfold byte_bits. cbn [lsb_bits].
  rewrite <- !N.bit0_odd, !N.div2_spec, !N.shiftr_spec'. reflexivity.
Qed.
Lemma bits_of_bytes t : bits_of t = bytes_bits t.
Proof. induction t as [|b t IH]; [reflexivity|]. cbn [bits_of]. rewrite byte_bits_lsb, IH. reflexivity. Qed.

Lemma bits_are_bytes : forall n bits, length bits = (n * 8)%nat -> exists data, length data = n /\ Forall is_byte data /\ bits = bytes_bits data.
Proof.
  induction n as [|n IH]; intros bits L.
  - destruct bits; [|discriminate]. exists []. repeat split. constructor.
  - do 8 (destruct bits as [|? bits]; [cbn [length] in L; lia|]).
    cbn [length] in L. destruct (IH bits) as (data & Ld & F & ->); [lia|].
    set (l := [b; b0; b1; b2; b3; b4; b5; b6]).
    assert (exists v, v < 2 ^ N.of_nat 8 /\ l = lsb_bits 8 v) as (v & Lv & E).
    { destruct (take_bits 8 l) as [[v r]|] eqn:E; [|discriminate].
      pose proof (take_bits_inv _ _ _ _ E) as [Lv E2]. exists v. split; [exact Lv|].
      assert (r = []) as -> by (cbn in E; injection E as _ <-; reflexivity). rewrite app_nil_r in E2. exact E2. }
    exists (v :: data). split; [cbn [length]; lia|]. split; [constructor; assumption|].
    unfold bytes_bits. cbn [flat_map]. rewrite <- E. reflexivity.
Qed.

(** ** Checksums *)
Lemma adler_add_mod a x : a < 65521 -> x < 65521 -> adler_add a x < 65521 /\ exists q, a + x = adler_add a x + q * 65521.
Proof.
  intros La Lx. unfold adler_add. destruct (N.ltb_spec (a + x) 65521) as [L|L].
  - split; [exact L|]. exists 0. lia.
  - split; [lia|]. exists 1. lia.
Qed.
Lemma sum2_length data : N.of_nat (length data) <= sum2 data.
Proof.
  induction data as [|x t IH]; [reflexivity|]. cbn [length sum2]. generalize (N.of_nat (S (length t)) * x). lia.
Qed.
Lemma adler_sums data : Forall is_byte data -> forall s1 s2, s1 < 65521 -> s2 < 65521 ->
  adler s1 s2 data = (s2 + N.of_nat (length data) * s1 + (sum2 data - N.of_nat (length data))) mod 65521 * 65536 + (s1 + sum1 data) mod 65521.
Proof.
  induction 1 as [|x t Hx F IH]; intros s1 s2 L1 L2; cbn [adler].
  - cbn [length sum1 sum2]. change (N.of_nat 0) with 0.
    change (0 - 0) with 0. rewrite N.mul_0_l, !N.add_0_r, !N.mod_small by assumption. reflexivity.
  - unfold is_byte in Hx. destruct (adler_add_mod s1 x L1 ltac:(lia)) as [La [q1 E1]]. set (a := adler_add s1 x) in *.
    destruct (adler_add_mod s2 a L2 La) as [Lb [q2 E2]]. set (b := adler_add s2 a) in *.
    rewrite IH by assumption. cbn [sum1 sum2]. pose proof (sum2_length t) as G. set (n := N.of_nat (length t)) in *.
    replace (N.of_nat (length (x :: t))) with (n + 1) by (unfold n; cbn [length]; lia).
    f_equal; [f_equal|].
    + symmetry. rewrite <- (N.mod_add (b + _ + _) (q2 + q1 + n * q1)) by discriminate. f_equal.
      assert (s1 = a + q1 * 65521 - x /\ x <= a + q1 * 65521) as [Es Lx] by lia.
      assert (E3 : n * (s1 + x) = n * (a + q1 * 65521)) by (rewrite E1; reflexivity).
      rewrite !N.mul_add_distr_l in E3. rewrite !N.mul_add_distr_r. lia.
    + symmetry. rewrite <- (N.mod_add (a + _) q1) by discriminate. f_equal. lia.
Qed.
Lemma adler_checksum data : Forall is_byte data -> adler 1 0 data = checksum data.
Proof.
  intros F. rewrite adler_sums by (exact F || reflexivity). unfold checksum. do 3 f_equal.
  pose proof (sum2_length data). lia.
Qed.

(** A changed byte changes the check value of a chunk *)
Lemma crc_bit_bound c : c < 2 ^ 32 -> crc_bit c < 2 ^ 32.
Proof.
  intros L. unfold crc_bit. assert (D : N.div2 c < 2 ^ 31) by (apply div2_lt; exact L).
  destruct (N.odd c); [|eapply N.lt_trans; [exact D|reflexivity]].
  set (d := N.div2 c) in *. destruct (N.eq_dec (N.lxor d 0xEDB88320) 0) as [->|Nz]; [reflexivity|].
  apply N.log2_lt_pow2; [lia|]. eapply N.le_lt_trans; [apply N.log2_lxor|].
  destruct (N.eq_dec d 0) as [->|Nd]; [reflexivity|].
  assert (N.log2 d < 31) by (apply N.log2_lt_pow2; [lia|exact D]). change (N.log2 0xEDB88320) with 31. lia.
Qed.
Lemma crc_bit_inj c d : c < 2 ^ 32 -> d < 2 ^ 32 -> crc_bit c = crc_bit d -> c = d.
Proof.
  intros Lc Ld E.
  assert (T : forall c, c < 2 ^ 32 -> N.testbit (crc_bit c) 31 = N.odd c).
  { clear. intros c L. unfold crc_bit. assert (D : N.div2 c < 2 ^ 31) by (apply div2_lt; exact L).
    assert (Z : N.testbit (N.div2 c) 31 = false).
    { destruct (N.eq_dec (N.div2 c) 0) as [->|Nz]; [reflexivity|].
      apply N.bits_above_log2, N.log2_lt_pow2; [lia|exact D]. }
    destruct (N.odd c); [|exact Z]. rewrite N.lxor_spec, Z. reflexivity. }
  pose proof (T c Lc) as Tc. pose proof (T d Ld) as Td. rewrite E, Td in Tc.
  rewrite <- (odd_div2 c), <- (odd_div2 d). unfold crc_bit in E. rewrite Tc in *.
  destruct (N.odd c).
  - assert (N.div2 c = N.div2 d) as ->; [|reflexivity].
    rewrite <- (N.lxor_0_r (N.div2 c)), <- (N.lxor_0_r (N.div2 d)), <- (N.lxor_nilpotent 0xEDB88320), <- !N.lxor_assoc, E. reflexivity.
  - rewrite E. reflexivity.
Qed.
Lemma lxor_bound a b n : a < 2 ^ n -> b < 2 ^ n -> N.lxor a b < 2 ^ n.
Proof.
  intros La Lb. destruct (N.eq_dec (N.lxor a b) 0) as [->|Nz]; [lia|].
  apply N.log2_lt_pow2; [lia|]. eapply N.le_lt_trans; [apply N.log2_lxor|].
  assert (L : forall x, x < 2 ^ n -> x <> 0 -> N.log2 x < n) by (intros x Lx Nx; apply N.log2_lt_pow2; lia).
  destruct (N.eq_dec a 0) as [->|Na]; destruct (N.eq_dec b 0) as [->|Nb].
  - contradiction Nz. reflexivity.
  - rewrite N.max_r by apply N.le_0_l. apply L; assumption.
  - rewrite N.max_l by apply N.le_0_l. apply L; assumption.
  - apply N.max_lub_lt; apply L; assumption.
Qed.
Lemma byte_bound b : is_byte b -> b < 2 ^ 32.
Proof. unfold is_byte. intros L. eapply N.lt_trans; [exact L|reflexivity]. Qed.
Lemma crc_byte_bound c b : c < 2 ^ 32 -> is_byte b -> crc_byte c b < 2 ^ 32.
Proof. intros Lc Lb. unfold crc_byte. repeat apply crc_bit_bound. apply lxor_bound; [exact Lc|apply byte_bound, Lb]. Qed.
Lemma crc_byte_lxor c d a b : c < 2 ^ 32 -> d < 2 ^ 32 -> is_byte a -> is_byte b ->
  crc_byte c a = crc_byte d b -> N.lxor c a = N.lxor d b.
Proof.
  intros Lc Ld La Lb E. unfold crc_byte in E.
  pose proof (lxor_bound c a 32 Lc (byte_bound a La)) as L1. pose proof (lxor_bound d b 32 Ld (byte_bound b Lb)) as L2.
  do 8 (apply crc_bit_inj in E; [|repeat apply crc_bit_bound; assumption|repeat apply crc_bit_bound; assumption]).
  exact E.
Qed.
Lemma lxor_inj_l a b c : N.lxor a b = N.lxor a c -> b = c.
Proof.
  intros E. rewrite <- (N.lxor_0_l b), <- (N.lxor_0_l c), <- (N.lxor_nilpotent a), !N.lxor_assoc, E. reflexivity.
Qed.
Lemma crc_fold_bound data : forall c, c < 2 ^ 32 -> Forall is_byte data -> fold_left crc_byte data c < 2 ^ 32.
Proof.
  induction data as [|b t IH]; intros c L F; [exact L|]. inversion F; subst. cbn [fold_left].
  apply IH; [apply crc_byte_bound; assumption|assumption].
Qed.
Lemma crc_fold_inj data : forall c d, c < 2 ^ 32 -> d < 2 ^ 32 -> Forall is_byte data ->
  fold_left crc_byte data c = fold_left crc_byte data d -> c = d.
Proof.
  induction data as [|b t IH]; intros c d Lc Ld F E; [exact E|]. inversion F as [|? ? Hb F' Q]; subst. cbn [fold_left] in E.
  apply IH in E; [|apply crc_byte_bound; assumption|apply crc_byte_bound; assumption|assumption].
  apply crc_byte_lxor in E; try assumption. rewrite (N.lxor_comm c), (N.lxor_comm d) in E. exact (lxor_inj_l _ _ _ E).
Qed.
Lemma crc_bound data : Forall is_byte data -> crc32 data < 2 ^ 32.
Proof. intros F. apply lxor_bound; [apply crc_fold_bound; [reflexivity|exact F]|reflexivity]. Qed.
Lemma crc_one_byte pre x y post : Forall is_byte pre -> Forall is_byte post -> is_byte x -> is_byte y ->
  crc32 (pre ++ x :: post) = crc32 (pre ++ y :: post) -> x = y.
Proof.
  intros Fp Fq Hx Hy E. unfold crc32 in E. rewrite !(N.lxor_comm _ 0xFFFFFFFF) in E. apply lxor_inj_l in E.
  rewrite !fold_left_app in E. cbn [fold_left] in E. set (c := fold_left crc_byte pre 0xFFFFFFFF) in *.
  assert (Lc : c < 2 ^ 32) by (apply crc_fold_bound; [reflexivity|exact Fp]).
  apply crc_fold_inj in E; try assumption; try (apply crc_byte_bound; assumption).
  apply crc_byte_lxor in E; try assumption. exact (lxor_inj_l _ _ _ E).
Qed.

(** ** zlib *)
Lemma copied_bytes dist : forall n out, Forall is_byte out -> Forall is_byte (copied n dist out).
Proof.
  induction n as [|n IH]; intros out F; [exact F|]. cbn [copied]. apply IH, Forall_app. split; [exact F|].
  constructor; [|constructor]. destruct (nth_in_or_default (length out - dist) out 0) as [I| ->]; [|reflexivity].
  rewrite Forall_forall in F. apply F, I.
Qed.
Lemma tokens_bytes lit dist out bits out' rest : tokens_bits lit dist out bits out' rest -> Forall is_byte out -> Forall is_byte out'.
Proof.
  induction 1 as [|out t b bits out' rest T Fi H IH]; intros F; [exact F|]. apply IH. destruct T as [b Lb|]; cbn [after_token].
  - apply Forall_app. split; [exact F|]. constructor; [exact Lb|constructor].
  - apply copied_bytes, F.
Qed.
Lemma block_bytes out bits out' rest : block_bits out bits out' rest -> Forall is_byte out -> Forall is_byte out'.
Proof.
  destruct 1 as [out pad data rest Lp Mr Ld Fd len|out bits out' rest H|out lit dist bits mid out' rest C Gl Gd H]; intros F.
  - apply Forall_app. split; assumption.
  - exact (tokens_bytes _ _ _ _ _ _ H F).
  - exact (tokens_bytes _ _ _ _ _ _ H F).
Qed.
Lemma deflated_bytes out bits out' rest : deflated out bits out' rest -> Forall is_byte out -> Forall is_byte out'.
Proof. induction 1 as [o1 b1 o2 r1 B|o1 b1 o2 m1 o3 r1 B D IH]; intros F; [|apply IH]; exact (block_bytes _ _ _ _ B F). Qed.

Lemma bytes_bits_app a b : bytes_bits (a ++ b) = bytes_bits a ++ bytes_bits b.
Proof. unfold bytes_bits. apply flat_map_app. Qed.
Lemma bytes_aligned data : Nat.modulo (length (bytes_bits data)) 8 = 0%nat.
Proof. rewrite bytes_length, Nat.mul_comm. apply Nat.mod_mul. lia. Qed.
Lemma be4_bytes v : v < 2 ^ 32 -> Forall is_byte (be4 v).
Proof.
  intros L. unfold be4. repeat constructor; try (apply N.mod_lt; discriminate).
  unfold is_byte. apply N.div_lt_upper_bound; [discriminate|]. exact L.
Qed.
Lemma checksum_bound data : checksum data < 2 ^ 32.
Proof.
  unfold checksum. pose proof (N.mod_lt (sum2 data) 65521 ltac:(discriminate)). pose proof (N.mod_lt (1 + sum1 data) 65521 ltac:(discriminate)).
  change (2 ^ 32) with (65535 * 65536 + 65536). lia.
Qed.

Lemma zlib_iff stream data : zlib_decode stream = Ret data <-> zlib_stream stream data.
Proof.
  split.
  - unfold zlib_decode. destruct stream as [|cmf [|flg body]]; [discriminate|discriminate|].
    destruct (N.eqb_spec (cmf mod 16) 8) as [E1|]; [|discriminate]. cbn [negb orb].
    destruct (N.ltb_spec 7 (cmf / 16)) as [|E2]; [discriminate|].
    destruct (N.eqb_spec ((cmf * 256 + flg) mod 31) 0) as [E3|]; [|discriminate]. cbn [negb orb].
    destruct (N.testbit flg 5) eqn:E4; [discriminate|]. rewrite bits_of_bytes. intros E.
    apply bind_ret in E. destruct E as ([rest out] & D & E). apply inflate_iff in D.
    apply bind_ret in E. destruct E as ([junk sum] & S & E).
    apply take_bytes_sound in S. destruct S as (four & L & F & Ea & ->). rewrite app_nil_r in E.
    destruct four as [|a [|b [|c [|d [|]]]]]; try discriminate L. cbn [rev app] in E.
    destruct (N.eqb_spec (be32 a b c d) (adler 1 0 out)) as [Es|]; [|discriminate]. injection E as ->.
    destruct (align_split rest) as (pad & Lp & Er & Ma). rewrite Ea in Ma, Er.
    assert (M : exists k, length junk = (k * 8)%nat).
    { rewrite app_length, bytes_length in Ma. cbn [length] in Ma. exists (length junk / 8)%nat.
      replace (8 * 4 + length junk)%nat with (length junk + 4 * 8)%nat in Ma by lia. rewrite Nat.mod_add in Ma by lia.
      pose proof (Nat.div_mod (length junk) 8 ltac:(lia)). lia. }
    destruct M as [k M]. destruct (bits_are_bytes k junk M) as (jb & _ & Fj & ->).
    exists cmf, flg, body, rest, pad, jb. repeat split; try assumption.
    rewrite Er at 1. rewrite bytes_bits_app. repeat f_equal.
    rewrite <- adler_checksum by (exact (deflated_bytes _ _ _ _ D (Forall_nil _))). rewrite <- Es.
    inversion F as [|? ? Ha F1]; inversion F1 as [|? ? Hb F2]; inversion F2 as [|? ? Hc F3]; inversion F3 as [|? ? Hd F4].
    symmetry. apply be4_be32; assumption.
  - intros (cmf & flg & body & rest & pad & junk & -> & E1 & E2 & E3 & E4 & D & Lp & Er). unfold zlib_decode.
    rewrite E1, E3, E4. destruct (N.ltb_spec 7 (cmf / 16)) as [|_]; [lia|]. cbn [negb orb N.eqb].
    change (negb (8 =? 8)) with false. change (negb (0 =? 0)) with false. cbn [orb].
    rewrite bits_of_bytes. apply inflate_iff in D. rewrite D. cbn [bind]. apply inflate_iff in D.
    rewrite Er, align_pad by (exact Lp || apply bytes_aligned). rewrite bytes_bits_app.
    change 4%nat with (length (be4 (checksum data))) at 1.
    rewrite take_bytes_complete by (apply be4_bytes, checksum_bound). cbn [bind].
    pose proof (be32_be4 (checksum data)) as B. unfold be4 in *. cbn [rev app]. rewrite B.
    rewrite adler_checksum by (exact (deflated_bytes _ _ _ _ D (Forall_nil _))). rewrite N.eqb_refl. reflexivity.
Qed.

(** ** Chunks *)
Lemma is_type_iff ty c : is_type ty c = true <-> ch_type c = ty.
Proof. unfold is_type. destruct (list_eq_dec N.eq_dec (ch_type c) ty); split; intros; congruence. Qed.
Lemma is_type_not ty c : is_type ty c = false <-> ch_type c <> ty.
Proof. unfold is_type. destruct (list_eq_dec N.eq_dec (ch_type c) ty); split; intros; congruence. Qed.

Lemma chunk_complete c rest : good_chunk c -> read_chunk (chunk_bytes c ++ rest) = Ret (c, rest).
Proof.
  intros [T L]. destruct c as [ty data]. cbn [ch_type ch_data] in *.
  destruct ty as [|t3 [|t2 [|t1 [|t0 [|]]]]]; try discriminate T. unfold chunk_bytes. cbn [ch_type ch_data].
  pose proof (be32_be4 (N.of_nat (length data))) as B.
  set (crc := crc32 ([t3; t2; t1; t0] ++ data)). pose proof (be32_be4 crc) as C.
  unfold be4 at 1. unfold be4 at 1 in B. cbn [app read_chunk]. rewrite B.
  destruct (N.ltb_spec 0x7FFFFFFF (N.of_nat (length data))) as [|_]; [lia|]. cbn [orb].
  destruct (N.ltb_spec (N.of_nat (length ((data ++ be4 crc) ++ rest))) (N.of_nat (length data))) as [Q|_];
    [rewrite !app_length in Q; lia|].
  rewrite Nat2N.id, <- app_assoc, firstn_app, firstn_all, Nat.sub_diag, skipn_app, skipn_all, Nat.sub_diag.
  cbn [firstn skipn app]. rewrite app_nil_r. unfold be4 in *. cbn [app ch_type ch_data]. rewrite C.
  change ([t3; t2; t1; t0] ++ data) with (t3 :: t2 :: t1 :: t0 :: data) in crc. fold crc.
  rewrite N.eqb_refl. reflexivity.
Qed.
Lemma chunk_sound s c rest : Forall is_byte s -> read_chunk s = Ret (c, rest) -> good_chunk c /\ s = chunk_bytes c ++ rest.
Proof.
  intros F. unfold read_chunk. destruct s as [|l3 [|l2 [|l1 [|l0 [|t3 [|t2 [|t1 [|t0 s]]]]]]]]; try discriminate.
  set (len := be32 l3 l2 l1 l0).
  destruct (N.ltb_spec 0x7FFFFFFF len) as [|L1]; [discriminate|].
  destruct (N.ltb_spec (N.of_nat (length s)) len) as [|L2]; [discriminate|]. cbn [orb ch_type ch_data].
  destruct (skipn (N.to_nat len) s) as [|c3 [|c2 [|c1 [|c0 s2]]]] eqn:Es; try discriminate.
  destruct (N.eqb_spec (be32 c3 c2 c1 c0) (crc32 ([t3; t2; t1; t0] ++ firstn (N.to_nat len) s))) as [Ec|]; [|discriminate].
  intros E. injection E as <- <-.
  assert (Ld : length (firstn (N.to_nat len) s) = N.to_nat len) by (rewrite firstn_length; lia).
  split; [split; [reflexivity|cbn [ch_data]; lia]|]. unfold chunk_bytes. cbn [ch_type ch_data].
  rewrite Ld, N2Nat.id, <- Ec.
  assert (Fs : Forall is_byte (c3 :: c2 :: c1 :: c0 :: s2)).
  { rewrite <- Es. apply forall_skipn. do 8 (apply Forall_inv_tail in F). exact F. }
  assert (B : be4 len = [l3; l2; l1; l0]).
  { inversion F as [|? ? K3 F1]; inversion F1 as [|? ? K2 F2]; inversion F2 as [|? ? K1 F3]; inversion F3 as [|? ? K0 F4].
    apply be4_be32; assumption. }
  assert (C : be4 (be32 c3 c2 c1 c0) = [c3; c2; c1; c0]).
  { inversion Fs as [|? ? K3 F1]; inversion F1 as [|? ? K2 F2]; inversion F2 as [|? ? K1 F3]; inversion F3 as [|? ? K0 F4].
    apply be4_be32; assumption. }
  rewrite B, C. cbn [app]. repeat f_equal. rewrite <- app_assoc. cbn [app]. rewrite <- Es. symmetry. apply firstn_skipn.
Qed.

Lemma chunk_length c : (12 <= length (chunk_bytes c) + (4 - length (ch_type c)))%nat.
Proof. unfold chunk_bytes. rewrite !app_length. cbn [length be4]. lia. Qed.
Definition iend : chunk := Chunk IEND [].

Lemma chunks_complete cs junk : Forall good_chunk cs -> Forall (none_of [IEND]) cs -> forall fuel, (length cs < fuel)%nat ->
  read_chunks fuel (flat_map chunk_bytes (cs ++ [iend]) ++ junk) = Ret cs.
Proof.
  induction cs as [|c cs IH]; intros G E [|fuel] L; cbn [length] in L; try lia; cbn [app flat_map read_chunks];
    rewrite <- app_assoc, chunk_complete.
  - cbn [bind]. reflexivity.
  - split; [reflexivity|cbn; lia].
  - cbn [bind]. inversion G; inversion E as [|? ? N1 E']; subst.
    rewrite (proj2 (is_type_not IEND c)) by (intros T; apply N1; left; symmetry; exact T).
    rewrite IH by (assumption || lia). reflexivity.
  - inversion G; assumption.
Qed.
Lemma chunks_sound fuel : forall s cs, Forall is_byte s -> read_chunks fuel s = Ret cs ->
  exists junk, s = flat_map chunk_bytes (cs ++ [iend]) ++ junk /\ Forall good_chunk cs /\ Forall (none_of [IEND]) cs.
Proof.
  induction fuel as [|fuel IH]; intros s cs F E; [discriminate|]. cbn [read_chunks] in E.
  apply bind_ret in E. destruct E as ([c rest] & E1 & E). apply chunk_sound in E1; [|exact F]. destruct E1 as [G ->].
  destruct (is_type IEND c) eqn:Ety.
  - apply is_type_iff in Ety. destruct c as [ty data]. cbn [ch_type ch_data] in *. subst ty.
    destruct data; [|discriminate]. injection E as <-. exists rest. split; [|split; constructor].
    cbn [app flat_map]. rewrite app_nil_r. reflexivity.
  - apply is_type_not in Ety. apply bind_ret in E. destruct E as (more & E1 & E). injection E as <-.
    apply Forall_app in F. apply IH in E1; [|apply F]. destruct E1 as (junk & -> & G' & N').
    exists junk. split; [|split; constructor; try assumption].
    + cbn [app flat_map]. rewrite <- app_assoc. reflexivity.
    + intros [Q|[]]. apply Ety. symmetry. exact Q.
Qed.

(** ** Header and palette *)
Lemma depth_iff d c : depth_ok d c = true <-> (In c [0; 3] /\ In d [1; 2; 4; 8]) \/ (In c [2; 4; 6] /\ d = 8).
Proof.
  assert (A : ((d =? 1) || (d =? 2) || (d =? 4) || (d =? 8)) = true <-> In d [1; 2; 4; 8]).
  { rewrite !orb_true_iff, !N.eqb_eq. cbn [In]. intuition auto. }
  assert (B : (d =? 8) = true <-> d = 8) by apply N.eqb_eq.
  unfold depth_ok. cbn [In] in *.
  destruct c as [|p]; [rewrite A; split; [intros; left; auto|intros [[_ H]|[[H|[H|[H|[]]]] _]]; auto; discriminate]|].
  do 4 (try destruct p as [p|p|]); (rewrite A || rewrite B || idtac);
    (split; [intros H; try discriminate; first [left; split; [auto|exact H]|right; split; [auto|exact H]]
            |intros [[[H|[H|[]]] K]|[[H|[H|[H|[]]]] K]]; try discriminate; exact K]).
Qed.
Lemma header_complete h : good_header h -> read_header (header_bytes h) = Ret h.
Proof.
  intros (W & H & D). destruct h as [w ht d c]. cbn [ph_width ph_height ph_depth ph_colour] in *.
  unfold header_bytes. cbn [ph_width ph_height ph_depth ph_colour].
  pose proof (be32_be4 w) as B1. pose proof (be32_be4 ht) as B2. unfold be4 in *. cbn [app read_header]. rewrite B1, B2.
  rewrite (proj2 (depth_iff d c) D).
  destruct (N.eqb_spec w 0); [lia|]. destruct (N.ltb_spec 0x7FFFFFFF w); [lia|].
  destruct (N.eqb_spec ht 0); [lia|]. destruct (N.ltb_spec 0x7FFFFFFF ht); [lia|]. reflexivity.
Qed.
Lemma header_sound data h : Forall is_byte data -> read_header data = Ret h -> good_header h /\ data = header_bytes h.
Proof.
  intros F. unfold read_header.
  destruct data as [|w3 [|w2 [|w1 [|w0 [|h3 [|h2 [|h1 [|h0 [|d [|c [|x [|y [|z [|]]]]]]]]]]]]]]; try discriminate.
  set (w := be32 w3 w2 w1 w0). set (ht := be32 h3 h2 h1 h0).
  destruct (N.eqb_spec w 0); [discriminate|]. destruct (N.ltb_spec 0x7FFFFFFF w); [discriminate|].
  destruct (N.eqb_spec ht 0); [discriminate|]. destruct (N.ltb_spec 0x7FFFFFFF ht); [discriminate|]. cbn [orb].
  destruct (depth_ok d c) eqn:D; [|discriminate]. apply depth_iff in D. cbn [negb orb].
  destruct (N.eqb_spec x 0) as [->|]; [|discriminate]. destruct (N.eqb_spec y 0) as [->|]; [|discriminate].
  destruct (N.eqb_spec z 0) as [->|]; [|discriminate]. cbn [negb orb]. intros E. injection E as <-.
  split; [repeat split; cbn; try lia; exact D|]. unfold header_bytes. cbn [ph_width ph_height ph_depth ph_colour].
  inversion F as [|? ? Q1 F1]; inversion F1 as [|? ? Q2 F2]; inversion F2 as [|? ? Q3 F3]; inversion F3 as [|? ? Q4 F4].
  inversion F4 as [|? ? Q5 F5]; inversion F5 as [|? ? Q6 F6]; inversion F6 as [|? ? Q7 F7]; inversion F7 as [|? ? Q8 F8].
  unfold w, ht. rewrite !be4_be32 by assumption. reflexivity.
Qed.

Lemma palette_complete p : read_palette (palette_bytes p) = Ret p.
Proof.
  induction p as [|[[r g] b] p IH]; [reflexivity|]. cbn [palette_bytes flat_map app read_palette].
  fold (palette_bytes p). rewrite IH. reflexivity.
Qed.
Lemma palette_sound : forall n data p, (length data <= n)%nat -> read_palette data = Ret p -> data = palette_bytes p.
Proof.
  induction n as [|n IH]; intros data p L E.
  - destruct data; [|cbn [length] in L; lia]. injection E as <-. reflexivity.
  - destruct data as [|r [|g [|b t]]]; [injection E as <-; reflexivity|discriminate|discriminate|]. cbn [read_palette] in E.
    apply bind_ret in E. destruct E as (more & E1 & E). injection E as <-. cbn [length] in L. apply IH in E1; [|lia]. subst t. reflexivity.
Qed.

(** ** Where the data are *)
Lemma none_types ts c ty : none_of ts c -> In ty ts -> is_type ty c = false.
Proof. intros H I. apply is_type_not. intros E. apply H. rewrite E. exact I. Qed.
Definition starts_data (cs : list chunk) : Prop := exists c t, cs = c :: t /\ ch_type c = IDAT.

Lemma find_skip h pal b cs : Forall (none_of [IHDR; PLTE; TRNS; IDAT; IEND]) b -> starts_data cs ->
  find_data h pal (b ++ cs) = Ret (pal, cs).
Proof.
  intros F (c & t & -> & T). induction F as [|x b Hx F IH]; cbn [app find_data].
  - rewrite (proj2 (is_type_iff IDAT c) T). reflexivity.
  - rewrite (none_types _ _ IDAT Hx), (none_types _ _ IHDR Hx), (none_types _ _ TRNS Hx), (none_types _ _ PLTE Hx) by (cbn; auto 6).
    cbn [orb]. exact IH.
Qed.
Lemma colour_iff h : good_header h -> (N.odd (ph_colour h) || (ph_colour h =? 2) || (ph_colour h =? 6)) = true <-> In (ph_colour h) [2; 3; 6].
Proof.
  intros (_ & _ & [[[H|[H|[]]] _]|[[H|[H|[H|[]]]] _]]); rewrite <- H; cbn; intuition (auto; discriminate).
Qed.
Lemma find_complete h pal before cs : good_header h -> before_data h pal before -> starts_data cs ->
  find_data h None (before ++ cs) = Ret (pal, cs).
Proof.
  intros Gh B Sd. destruct pal as [p|]; [|apply find_skip; assumption].
  destruct B as ((Gc & Gn & Gl) & b1 & b2 & -> & F). apply Forall_app in F. destruct F as [F1 F2].
  rewrite <- app_assoc. cbn [app]. induction F1 as [|x b Hx F IH]; cbn [app find_data].
  - change (is_type IDAT (Chunk PLTE (palette_bytes p))) with false. change (is_type IHDR (Chunk PLTE (palette_bytes p))) with false.
    change (is_type TRNS (Chunk PLTE (palette_bytes p))) with false. change (is_type PLTE (Chunk PLTE (palette_bytes p))) with true.
    cbn [orb ch_data]. rewrite palette_complete. cbn [bind]. rewrite (proj2 (colour_iff h Gh) Gc). cbn [negb orb].
    destruct p as [|e p]; [contradiction Gn; reflexivity|]. cbn [length Nat.eqb orb].
    destruct (N.ltb_spec (2 ^ ph_depth h) (N.of_nat (S (length p)))) as [Q|_]; [cbn [length] in Gl; lia|].
    apply find_skip; assumption.
  - rewrite (none_types _ _ IDAT Hx), (none_types _ _ IHDR Hx), (none_types _ _ TRNS Hx), (none_types _ _ PLTE Hx) by (cbn; auto 6).
    cbn [orb]. exact IH.
Qed.
Lemma find_sound h : good_header h -> forall cs pal pal' cs', Forall (none_of [IEND]) cs -> find_data h pal cs = Ret (pal', cs') ->
  exists before, cs = before ++ cs' /\ starts_data cs' /\
    match pal with
    | None => before_data h pal' before
    | Some p => pal' = Some p /\ before_data h None before
    end.
Proof.
  intros Gh. induction cs as [|c cs IH]; intros pal pal' cs' Fe E; [discriminate|]. cbn [find_data] in E.
  inversion Fe as [|? ? Ne Fe']; subst.
  destruct (is_type IDAT c) eqn:T1.
  { injection E as <- <-. apply is_type_iff in T1. exists []. split; [reflexivity|].
    split; [exists c, cs; split; [reflexivity|exact T1]|]. destruct pal as [p|]; [split; [reflexivity|]|]; constructor. }
  destruct (is_type IHDR c) eqn:T2; [discriminate|]. destruct (is_type TRNS c) eqn:T3; [discriminate|]. cbn [orb] in E.
  apply is_type_not in T1, T2, T3.
  destruct (is_type PLTE c) eqn:T4.
  - apply is_type_iff in T4. destruct pal; [discriminate|].
    apply bind_ret in E. destruct E as (p & E1 & E). apply (palette_sound (length (ch_data c))) in E1; [|lia].
    destruct (N.odd (ph_colour h) || (ph_colour h =? 2) || (ph_colour h =? 6)) eqn:C; [|discriminate].
    apply (colour_iff h Gh) in C. cbn [negb orb] in E.
    destruct (Nat.eqb_spec (length p) 0) as [|Lp]; [discriminate|]. cbn [orb] in E.
    destruct (N.ltb_spec (2 ^ ph_depth h) (N.of_nat (length p))) as [|Ll]; [discriminate|].
    apply IH in E; [|exact Fe']. destruct E as (b & -> & S & -> & B). exists (c :: b). split; [reflexivity|]. split; [exact S|].
    split.
    + split; [exact C|]. split; [intros ->; apply Lp; reflexivity|exact Ll].
    + exists [], b. split; [|exact B]. cbn [app]. f_equal. destruct c as [ty d]. cbn [ch_type ch_data] in *. congruence.
  - apply is_type_not in T4. apply IH in E; [|exact Fe']. destruct E as (b & -> & S & B). exists (c :: b).
    assert (N5 : none_of [IHDR; PLTE; TRNS; IDAT; IEND] c).
    { intros [Q|[Q|[Q|[Q|[Q|[]]]]]]; [congruence..|]. apply Ne. left. exact Q. }
    split; [reflexivity|]. split; [exact S|]. destruct pal as [p|].
    + destruct B as [-> B]. split; [reflexivity|]. constructor; assumption.
    + destruct pal' as [p|]; [|constructor; assumption]. destruct B as (G & b1 & b2 & -> & F). split; [exact G|].
      exists (c :: b1), b2. split; [reflexivity|]. constructor; assumption.
Qed.

Lemma join_complete idats after : (forall c t, after = c :: t -> none_of [IDAT] c) ->
  join_data (map (Chunk IDAT) idats ++ after) = (concat idats, after).
Proof.
  intros H. induction idats as [|d ds IH].
  - cbn [map app concat]. destruct after as [|c t]; [reflexivity|]. cbn [join_data].
    rewrite (none_types _ _ IDAT (H c t eq_refl)) by (left; reflexivity). reflexivity.
  - cbn [map app concat join_data]. change (is_type IDAT (Chunk IDAT d)) with true. cbn [ch_data]. rewrite IH. reflexivity.
Qed.
Lemma join_sound cs : forall data after, join_data cs = (data, after) ->
  exists idats, cs = map (Chunk IDAT) idats ++ after /\ data = concat idats /\ forall c t, after = c :: t -> none_of [IDAT] c.
Proof.
  induction cs as [|c cs IH]; intros data after E; cbn [join_data] in E.
  - injection E as <- <-. exists []. repeat split. discriminate.
  - destruct (is_type IDAT c) eqn:T.
    + apply is_type_iff in T. destruct (join_data cs) as [d r]. injection E as <- <-.
      destruct (IH d r eq_refl) as (ds & -> & -> & H). exists (ch_data c :: ds). split; [|split; [reflexivity|exact H]].
      cbn [map app]. f_equal. destruct c as [ty d]. cbn [ch_type ch_data] in *. congruence.
    + apply is_type_not in T. injection E as <- <-. exists []. repeat split. intros c' t' Q. injection Q as <- <-.
      intros [Q|[]]. apply T. symmetry. exact Q.
Qed.

(** ** Filters *)
Lemma paeth_nearest a b c : paeth a b c = nearest (Z.of_N a + Z.of_N b - Z.of_N c) a [b; c].
Proof.
  unfold paeth. cbn [nearest]. set (p := (Z.of_N a + Z.of_N b - Z.of_N c)%Z).
  set (pa := Z.abs (p - Z.of_N a)). set (pb := Z.abs (p - Z.of_N b)). set (pc := Z.abs (p - Z.of_N c)).
  destruct (Z.ltb_spec pb pa) as [L1|L1]; fold pa pb;
    destruct (Z.leb_spec pa pb) as [L2|L2]; try lia; destruct (Z.leb_spec pa pc) as [L3|L3]; cbn [andb];
    destruct (Z.leb_spec pb pc) as [L4|L4]; try lia;
    (destruct (Z.ltb_spec pc pb) as [L5|L5] || idtac); (destruct (Z.ltb_spec pc pa) as [L6|L6] || idtac); try lia; reflexivity.
Qed.
Lemma predict_prediction f a b c : predict f a b c = prediction f a b c.
Proof.
  unfold predict, prediction. destruct f as [|[[q|q|]|[q|q|]|]]; try reflexivity; try apply paeth_nearest. apply N.div2_div.
Qed.
Lemma prediction_byte f a b c : is_byte a -> is_byte b -> is_byte c -> prediction f a b c < 256.
Proof.
  unfold is_byte. intros Ha Hb Hc. unfold prediction.
  assert (Nb : nearest (Z.of_N a + Z.of_N b - Z.of_N c) a [b; c] < 256).
  { cbn [nearest]. repeat match goal with |- context [if ?x then _ else _] => destruct x end; assumption. }
  assert (Av : (a + b) / 2 < 256) by (apply N.div_lt_upper_bound; lia).
  destruct f as [|[[q|q|]|[q|q|]|]]; try assumption; lia.
Qed.
Lemma recon_spec f a b c x : is_byte x ->
  recon f a b c x = if x + prediction f a b c <? 256 then x + prediction f a b c else x + prediction f a b c - 256.
Proof.
  unfold is_byte. intros L. unfold recon. rewrite predict_prediction. destruct f; [|reflexivity]. cbn [prediction].
  rewrite N.add_0_r. destruct (N.ltb_spec x 256); [reflexivity|lia].
Qed.
Lemma filtered_byte f a b c x : is_byte (filtered f a b c x).
Proof. unfold filtered, is_byte. apply N.mod_lt. discriminate. Qed.
Lemma recon_byte f a b c x : is_byte a -> is_byte b -> is_byte c -> is_byte x -> is_byte (recon f a b c x).
Proof.
  intros Ha Hb Hc Hx. rewrite recon_spec by exact Hx. pose proof (prediction_byte f a b c Ha Hb Hc) as P. unfold is_byte in *.
  destruct (N.ltb_spec (x + prediction f a b c) 256); lia.
Qed.
Lemma recon_filtered f a b c x : is_byte a -> is_byte b -> is_byte c -> is_byte x ->
  recon f a b c (filtered f a b c x) = x.
Proof.
  intros Ha Hb Hc Hx. rewrite recon_spec by apply filtered_byte. pose proof (prediction_byte f a b c Ha Hb Hc) as P.
  unfold is_byte, filtered in *. set (p := prediction f a b c) in *.
  destruct (N.ltb_spec ((x + 256 - p) mod 256 + p) 256) as [L|L]; divs.
Qed.
Lemma filtered_recon f a b c x : is_byte a -> is_byte b -> is_byte c -> is_byte x ->
  filtered f a b c (recon f a b c x) = x.
Proof.
  intros Ha Hb Hc Hx. rewrite recon_spec by exact Hx. pose proof (prediction_byte f a b c Ha Hb Hc) as P.
  unfold is_byte, filtered in *. set (p := prediction f a b c) in *.
  destruct (N.ltb_spec (x + p) 256) as [L|L]; divs.
Qed.

Ltac shapes := repeat match goal with
  | H : pixel_shape (S _) (_ :: _) |- _ =>
      let L := fresh "L" in let F := fresh "F" in destruct H as [L F]; cbn [length] in L; inversion F; clear F; subst
  end.
Lemma pixel_cons b px : pixel_shape (S b) px -> exists x t, px = x :: t /\ is_byte x /\ pixel_shape b t.
Proof.
  intros [L F]. destruct px as [|x t]; [discriminate|]. inversion F; subst. exists x, t. repeat split; try assumption.
  cbn [length] in L. lia.
Qed.
Lemma pixel_nil px : pixel_shape 0 px -> px = [].
Proof. intros [L _]. destruct px; [reflexivity|discriminate]. Qed.

Lemma filtered_pixel_shape f : forall b l u ul px, pixel_shape b l -> pixel_shape b u -> pixel_shape b ul -> pixel_shape b px ->
  pixel_shape b (filtered_pixel f l u ul px) /\ recon_pixel f l u ul (filtered_pixel f l u ul px) = px.
Proof.
  induction b as [|b IH]; intros l u ul px Sl Su Sul Sp.
  - apply pixel_nil in Sl, Su, Sul, Sp. subst. repeat split. constructor.
  - apply pixel_cons in Sl, Su, Sul, Sp.
    destruct Sl as (l0 & l' & -> & Hl & Sl), Su as (u0 & u' & -> & Hu & Su), Sul as (c0 & c' & -> & Hc & Sul), Sp as (x0 & x' & -> & Hx & Sp).
    destruct (IH l' u' c' x' Sl Su Sul Sp) as [[L F] R]. cbn [filtered_pixel recon_pixel]. rewrite R, recon_filtered by assumption.
    split; [|reflexivity]. split; [cbn [length]; rewrite L; reflexivity|]. constructor; [apply filtered_byte|exact F].
Qed.
Lemma recon_pixel_shape f : forall b l u ul px, pixel_shape b l -> pixel_shape b u -> pixel_shape b ul -> pixel_shape b px ->
  pixel_shape b (recon_pixel f l u ul px) /\ filtered_pixel f l u ul (recon_pixel f l u ul px) = px.
Proof.
  induction b as [|b IH]; intros l u ul px Sl Su Sul Sp.
  - apply pixel_nil in Sl, Su, Sul, Sp. subst. repeat split. constructor.
  - apply pixel_cons in Sl, Su, Sul, Sp.
    destruct Sl as (l0 & l' & -> & Hl & Sl), Su as (u0 & u' & -> & Hu & Su), Sul as (c0 & c' & -> & Hc & Sul), Sp as (x0 & x' & -> & Hx & Sp).
    destruct (IH l' u' c' x' Sl Su Sul Sp) as [[L F] R]. cbn [filtered_pixel recon_pixel]. rewrite R, filtered_recon by assumption.
    split; [|reflexivity]. split; [cbn [length]; rewrite L; reflexivity|]. constructor; [apply recon_byte; assumption|exact F].
Qed.

Lemma row_cons n b row : row_shape (S n) b row -> exists px t, row = px :: t /\ pixel_shape b px /\ row_shape n b t.
Proof.
  intros [L F]. destruct row as [|x t]; [discriminate|]. inversion F; subst. exists x, t. repeat split; try assumption; try apply H1.
  cbn [length] in L. lia.
Qed.
Lemma row_nil b row : row_shape 0 b row -> row = [].
Proof. intros [L _]. destruct row; [reflexivity|discriminate]. Qed.
Lemma cons_row n b px t : pixel_shape b px -> row_shape n b t -> row_shape (S n) b (px :: t).
Proof. intros P [L F]. split; [cbn [length]; rewrite L; reflexivity|]. constructor; assumption. Qed.

Lemma filtered_row_shape f b : forall n row prev l ul, row_shape n b row -> row_shape n b prev -> pixel_shape b l -> pixel_shape b ul ->
  exists frow, row_shape n b frow /\ filtered_row f l ul row prev = concat frow /\ recon_row f l ul frow prev = row.
Proof.
  induction n as [|n IH]; intros row prev l ul Sr Sp Sl Sul.
  - apply row_nil in Sr, Sp. subst. exists []. repeat split. constructor.
  - apply row_cons in Sr, Sp. destruct Sr as (x & row' & -> & Hx & Sr), Sp as (u & prev' & -> & Hu & Sp).
    destruct (filtered_pixel_shape f b l u ul x Sl Hu Sul Hx) as [Sf R].
    destruct (IH row' prev' x u Sr Sp Hx Hu) as (frow & S1 & E1 & R1).
    exists (filtered_pixel f l u ul x :: frow). split; [apply cons_row; assumption|].
    cbn [filtered_row recon_row concat]. rewrite R, E1, R1. split; reflexivity.
Qed.
Lemma recon_row_shape f b : forall n frow prev l ul, row_shape n b frow -> row_shape n b prev -> pixel_shape b l -> pixel_shape b ul ->
  row_shape n b (recon_row f l ul frow prev) /\ filtered_row f l ul (recon_row f l ul frow prev) prev = concat frow.
Proof.
  induction n as [|n IH]; intros row prev l ul Sr Sp Sl Sul.
  - apply row_nil in Sr, Sp. subst. repeat split. constructor.
  - apply row_cons in Sr, Sp. destruct Sr as (x & row' & -> & Hx & Sr), Sp as (u & prev' & -> & Hu & Sp).
    cbn [recon_row]. destruct (recon_pixel_shape f b l u ul x Sl Hu Sul Hx) as [Sf R]. set (y := recon_pixel f l u ul x) in *.
    destruct (IH row' prev' y u Sr Sp Sf Hu) as (S1 & E1).
    split; [apply cons_row; assumption|]. cbn [filtered_row concat]. rewrite R, E1. reflexivity.
Qed.

Lemma pixels_complete b : forall n frow raw, row_shape n b frow -> take_pixels n b (concat frow ++ raw) = Ret (frow, raw).
Proof.
  induction n as [|n IH]; intros frow raw Sr.
  - apply row_nil in Sr. subst. reflexivity.
  - apply row_cons in Sr. destruct Sr as (x & t & -> & [Lx _] & Sr). cbn [concat take_pixels]. rewrite <- app_assoc.
    assert (F1 : firstn b (x ++ concat t ++ raw) = x).
    { rewrite firstn_app, firstn_all2 by lia. replace (b - length x)%nat with 0%nat by lia. apply app_nil_r. }
    assert (F2 : skipn b (x ++ concat t ++ raw) = concat t ++ raw).
    { rewrite skipn_app, skipn_all2 by lia. replace (b - length x)%nat with 0%nat by lia. reflexivity. }
    rewrite F1, F2, Lx, Nat.eqb_refl, IH by exact Sr. reflexivity.
Qed.
Lemma pixels_sound b : forall n raw frow raw', Forall is_byte raw -> take_pixels n b raw = Ret (frow, raw') ->
  row_shape n b frow /\ raw = concat frow ++ raw'.
Proof.
  induction n as [|n IH]; intros raw frow raw' F E; cbn [take_pixels] in E.
  - injection E as <- <-. split; [split; [reflexivity|constructor]|reflexivity].
  - destruct (Nat.eqb_spec (length (firstn b raw)) b) as [L|]; [|discriminate].
    apply bind_ret in E. destruct E as ([t raw1] & E1 & E). injection E as <- <-.
    apply IH in E1; [|apply forall_skipn, F]. destruct E1 as [S1 E1]. split.
    + apply cons_row; [|exact S1]. split; [exact L|]. apply forall_firstn, F.
    + cbn [concat]. rewrite <- app_assoc, <- E1. symmetry. apply firstn_skipn.
Qed.

Lemma zero_pixel b : pixel_shape b (repeat 0 b).
Proof.
  split; [apply repeat_length|]. apply Forall_forall. intros x I. apply repeat_spec in I. subst x. reflexivity.
Qed.
Lemma zero_row n b : row_shape n b (repeat (repeat 0 b) n).
Proof.
  split; [apply repeat_length|]. apply Forall_forall. intros x I. apply repeat_spec in I. subst x. apply zero_pixel.
Qed.

Lemma rows_complete n b : forall h filters prev rows, rows_shape h n b rows -> row_shape n b prev ->
  length filters = h -> Forall (fun f => f <= 4) filters ->
  read_rows h n b prev (rows_bytes b filters prev rows) = Ret rows.
Proof.
  induction h as [|h IH]; intros filters prev rows [L F] Sp Lf Ff.
  - destruct rows; [|discriminate]. destruct filters; [|discriminate]. reflexivity.
  - destruct rows as [|row rows]; [discriminate|]. destruct filters as [|f filters]; [discriminate|]. cbn [rows_bytes read_rows].
    inversion F; subst. inversion Ff; subst. cbn [length] in L, Lf.
    destruct (N.ltb_spec 4 f) as [|_]; [lia|].
    destruct (filtered_row_shape f b n row prev (repeat 0 b) (repeat 0 b)) as (frow & S1 & E1 & R1); try assumption; try apply zero_pixel.
    rewrite E1, pixels_complete by exact S1. cbn [bind]. rewrite R1, IH; [reflexivity|split; [lia|assumption]|assumption|lia|assumption].
Qed.
Lemma rows_sound n b : forall h prev raw rows, Forall is_byte raw -> row_shape n b prev -> read_rows h n b prev raw = Ret rows ->
  exists filters, length filters = h /\ Forall (fun f => f <= 4) filters /\ rows_shape h n b rows /\ raw = rows_bytes b filters prev rows.
Proof.
  induction h as [|h IH]; intros prev raw rows F Sp E; cbn [read_rows] in E.
  - destruct raw; [|discriminate]. injection E as <-. exists []. repeat split; constructor.
  - destruct raw as [|f raw]; [discriminate|]. destruct (N.ltb_spec 4 f) as [|Lf]; [discriminate|].
    apply bind_ret in E. destruct E as ([frow raw1] & E1 & E). inversion F as [|? ? Hf F']; subst.
    apply pixels_sound in E1; [|exact F']. destruct E1 as [S1 ->]. apply Forall_app in F'. destruct F' as [_ F1].
    apply bind_ret in E. destruct E as (more & E2 & E). injection E as <-.
    destruct (recon_row_shape f b n frow prev (repeat 0 b) (repeat 0 b)) as [S2 R2]; try assumption; try apply zero_pixel.
    set (row := recon_row f (repeat 0 b) (repeat 0 b) frow prev) in *.
    apply IH in E2; [|exact F1|exact S2]. destruct E2 as (fs & L & Ff & [Lr Fr] & ->).
    exists (f :: fs). split; [cbn [length]; lia|]. split; [constructor; assumption|]. split.
    + split; [cbn [length]; lia|]. constructor; assumption.
    + cbn [rows_bytes]. rewrite R2. reflexivity.
Qed.

(** ** Files *)
Lemma strip_app p s : strip_prefix p (p ++ s) = Some s.
Proof. induction p as [|a p IH]; cbn [app strip_prefix]; [destruct s; reflexivity|]. rewrite N.eqb_refl. exact IH. Qed.
Lemma strip_inv p : forall s t, strip_prefix p s = Some t -> s = p ++ t.
Proof.
  induction p as [|a p IH]; intros s t E.
  - destruct s; injection E as <-; reflexivity.
  - destruct s as [|b s]; [discriminate|]. cbn [strip_prefix] in E. destruct (N.eqb_spec a b) as [->|]; [|discriminate].
    cbn [app]. f_equal. apply IH, E.
Qed.

Lemma none_weaken ts us c : incl us ts -> none_of ts c -> none_of us c.
Proof. intros I H Q. apply H, I, Q. Qed.
Lemma before_no_end h pal before : before_data h pal before -> Forall (none_of [IEND]) before.
Proof.
  intros B. assert (W : forall l, Forall (none_of [IHDR; PLTE; TRNS; IDAT; IEND]) l -> Forall (none_of [IEND]) l).
  { intros l F. eapply Forall_impl; [|exact F]. intros c. apply none_weaken. intros x [<-|[]]. cbn. auto 6. }
  destruct pal as [p|]; [|apply W, B]. destruct B as (_ & b1 & b2 & -> & F). apply Forall_app in F. destruct F as [F1 F2].
  apply Forall_app. split; [apply W, F1|]. constructor; [|apply W, F2]. intros [Q|[]]. discriminate.
Qed.

Lemma chunks_fuel cs junk : Forall good_chunk cs -> (length cs < S (length (flat_map chunk_bytes (cs ++ [iend]) ++ junk)))%nat.
Proof.
  intros G. assert (L : (length cs <= length (flat_map chunk_bytes cs))%nat).
  { induction G as [|c cs [T _] G IH]; [reflexivity|]. cbn [flat_map length]. rewrite app_length. pose proof (chunk_length c). lia. }
  rewrite flat_map_app, !app_length. lia.
Qed.

Lemma png_complete file p : png_file file p -> png_decode file = Ret p.
Proof.
  intros (pal & before & idats & after & junk & raw & filters & H). cbv zeta in H.
  destruct H as (-> & Gc & Gh & B & Ni & [Fa Fd] & Z & Er & Lf & Ff & Sr & P).
  destruct p as [h palette rows]. cbn [p_header p_palette p_rows] in *.
  unfold png_decode. rewrite strip_app.
  set (cs := Chunk IHDR (header_bytes h) :: before ++ map (Chunk IDAT) idats ++ after).
  replace (Chunk IHDR (header_bytes h) :: before ++ map (Chunk IDAT) idats ++ after ++ [Chunk IEND []]) with (cs ++ [iend]) in *
    by (unfold cs; cbn [app]; rewrite <- !app_assoc; reflexivity).
  apply Forall_app in Gc. destruct Gc as [Gc _].
  rewrite chunks_complete; [|exact Gc| |apply chunks_fuel, Gc].
  2:{ unfold cs. constructor; [intros [Q|[]]; discriminate|]. apply Forall_app. split; [exact (before_no_end _ _ _ B)|].
      apply Forall_app. split.
      - apply Forall_forall. intros c I. apply in_map_iff in I. destruct I as (d & <- & _). intros [Q|[]]. discriminate.
      - eapply Forall_impl; [|exact Fa]. intros c. apply none_weaken. intros x [<-|[]]. cbn. auto 6. }
  cbn [bind]. unfold cs. change (is_type IHDR (Chunk IHDR (header_bytes h))) with true. cbn [negb ch_data].
  rewrite header_complete by exact Gh. cbn [bind]. rewrite (find_complete h pal before); [|exact Gh|exact B|].
  2:{ destruct idats as [|d ds]; [contradiction Ni; reflexivity|]. eexists _, _. split; reflexivity. }
  cbn [bind]. rewrite join_complete by exact Fd.
  replace (existsb (fun c => is_type IHDR c || is_type PLTE c || is_type TRNS c) after) with false.
  2:{ symmetry. clear - Fa. induction Fa as [|c t Hc F IH]; [reflexivity|]. cbn [existsb].
      rewrite (none_types _ _ IHDR Hc), (none_types _ _ TRNS Hc), (none_types _ _ PLTE Hc) by (cbn; auto 6). exact IH. }
  assert (Ep : (if ph_colour h =? 3 then pal else Some []) = Some palette) by (destruct (ph_colour h =? 3); rewrite P; reflexivity).
  rewrite Ep. apply zlib_iff in Z. rewrite Z. cbn [bind]. rewrite Er, rows_complete; try assumption; [reflexivity|]. apply zero_row.
Qed.

Lemma png_sound file p : Forall is_byte file -> png_decode file = Ret p -> png_file file p.
Proof.
  intros F E. unfold png_decode in E. destruct (strip_prefix signature file) as [rest|] eqn:Es; [|discriminate].
  apply strip_inv in Es. subst file. apply Forall_app in F. destruct F as [_ F].
  apply bind_ret in E. destruct E as (cs & E1 & E). apply chunks_sound in E1; [|exact F]. destruct E1 as (junk & -> & Gc & Ne).
  destruct cs as [|c cs]; [discriminate|]. destruct (is_type IHDR c) eqn:T; [|discriminate]. apply is_type_iff in T. cbn [negb] in E.
  apply bind_ret in E. destruct E as (h & E1 & E). 
  assert (Fc : Forall is_byte (ch_data c)).
  { clear - F. cbn [app flat_map] in F. apply Forall_app in F. destruct F as [F _]. apply Forall_app in F. destruct F as [F _].
    unfold chunk_bytes in F. apply Forall_app in F. destruct F as [_ F]. apply Forall_app in F. destruct F as [_ F].
    apply Forall_app in F. apply F. }
  apply header_sound in E1; [|exact Fc]. destruct E1 as [Gh Eh].
  apply bind_ret in E. destruct E as ([pal cs2] & E1 & E). inversion Ne as [|? ? _ Ne']; subst.
  apply (find_sound h Gh) in E1; [|exact Ne']. destruct E1 as (before & -> & Sd & B).
  destruct (join_data cs2) as [data after] eqn:Ej. apply join_sound in Ej. destruct Ej as (idats & -> & -> & Fd).
  destruct (existsb _ after) eqn:Ea; [discriminate|].
  destruct (if ph_colour h =? 3 then pal else Some []) as [palette|] eqn:Ep; [|discriminate].
  apply bind_ret in E. destruct E as (raw & Z & E). apply zlib_iff in Z.
  apply bind_ret in E. destruct E as (rows & E1 & E). injection E as <-.
  apply rows_sound in E1; [|destruct Z as (? & ? & ? & ? & ? & ? & _ & _ & _ & _ & _ & D & _); exact (deflated_bytes _ _ _ _ D (Forall_nil _))|apply zero_row].
  destruct E1 as (filters & Lf & Ff & Sr & Er).
  exists pal, before, idats, after, junk, raw, filters. cbv zeta. cbn [p_header p_palette p_rows].
  assert (c = Chunk IHDR (header_bytes h)) as -> by (destruct c as [ty d]; cbn [ch_type ch_data] in *; congruence).
  assert (Ei : idats <> []).
  { intros ->. cbn [map app] in Sd. destruct Sd as (c & t & -> & Tc). apply (Fd c t eq_refl). left. symmetry. exact Tc. }
  repeat match goal with |- _ /\ _ => split end; try assumption.
  - f_equal. cbn [app]. rewrite <- !app_assoc. reflexivity.
  - change (Chunk IHDR (header_bytes h) :: before ++ map (Chunk IDAT) idats ++ after ++ [Chunk IEND []])
      with ((Chunk IHDR (header_bytes h) :: before) ++ map (Chunk IDAT) idats ++ after ++ [Chunk IEND []]).
    rewrite !app_assoc. apply Forall_app. split; [|constructor; [split; [reflexivity|cbn; lia]|constructor]].
    rewrite <- !app_assoc. exact Gc.
  - split; [|exact Fd]. apply Forall_forall. intros c I. rewrite <- not_true_iff_false, existsb_exists in Ea.
    assert (Nc : is_type IEND c = false).
    { apply is_type_not. intros Q. apply Forall_app in Ne'. destruct Ne' as [_ Ne']. apply Forall_app in Ne'. destruct Ne' as [_ Ne'].
      rewrite Forall_forall in Ne'. apply (Ne' c I). left. symmetry. exact Q. }
    apply is_type_not in Nc.
    assert (Q : (is_type IHDR c || is_type PLTE c || is_type TRNS c) = false).
    { destruct (is_type IHDR c || is_type PLTE c || is_type TRNS c) eqn:Q; [|reflexivity]. contradiction Ea. exists c. split; assumption. }
    apply orb_false_iff in Q. destruct Q as [Q Q3]. apply orb_false_iff in Q. destruct Q as [Q1 Q2].
    apply is_type_not in Q1, Q2, Q3. intros [H|[H|[H|[H|[]]]]]; congruence.
  - destruct (ph_colour h =? 3); congruence.
Qed.
Lemma png_iff file p : Forall is_byte file -> (png_decode file = Ret p <-> png_file file p).
Proof. intros F. split; [apply png_sound, F|apply png_complete]. Qed.

(** A file with one wrong byte in the type, the data or the check value of a chunk *)
Definition one_changed (a b : list N) : Prop :=
  exists pre x y post, a = pre ++ x :: post /\ b = pre ++ y :: post /\ x <> y.

Lemma split_before {A} (pre : list A) x post s t : pre ++ x :: post = s ++ t -> (length pre < length s)%nat ->
  exists q, s = pre ++ x :: q /\ post = q ++ t.
Proof.
  revert s. induction pre as [|a pre IH]; intros [|b s] E L; cbn [length app] in *; try lia.
  - injection E as -> ->. exists s. split; reflexivity.
  - injection E as -> E. destruct (IH s E) as (q & -> & ->); [lia|]. exists q. split; reflexivity.
Qed.
Lemma app_same_length {A} (a b c d : list A) : length a = length c -> a ++ b = c ++ d -> a = c /\ b = d.
Proof.
  revert c. induction a as [|x a IH]; intros [|y c] L E; try discriminate L; cbn [app] in E.
  - split; [reflexivity|exact E].
  - injection E as -> E. destruct (IH c) as [-> ->]; [cbn [length] in L; lia|exact E|]. split; reflexivity.
Qed.
Lemma crc_detects s s' : Forall is_byte s -> Forall is_byte s' -> length s = length s' ->
  ~ one_changed (s ++ be4 (crc32 s)) (s' ++ be4 (crc32 s')).
Proof.
  intros F F' L (pre & x & y & post & E & E' & Nxy).
  destruct (Nat.lt_ge_cases (length pre) (length s)) as [Lp|Lp].
  - destruct (split_before pre x post s _ (eq_sym E) Lp) as (q & Es & Ep).
    destruct (split_before pre y post s' _ (eq_sym E') ltac:(lia)) as (q' & Es' & Ep').
    rewrite Ep in Ep'. apply app_same_length in Ep'.
    2:{ rewrite Es, Es' in L. rewrite !app_length in L. cbn [length] in L. lia. }
    destruct Ep' as [<- Ec]. apply be4_inj in Ec. rewrite Es, Es' in Ec.
    rewrite Es in F. rewrite Es' in F'. apply Forall_app in F, F'. destruct F as [Fp Fx], F' as [_ Fy].
    inversion Fx; inversion Fy; subst. apply crc_one_byte in Ec; try assumption. contradiction.
  - assert (s = firstn (length s) pre /\ s' = firstn (length s) pre) as [Es Es'].
    { split.
      - transitivity (firstn (length s) (s ++ be4 (crc32 s))); [rewrite firstn_app, firstn_all, Nat.sub_diag, app_nil_r; reflexivity|].
        rewrite E, firstn_app. replace (length s - length pre)%nat with 0%nat by lia. apply app_nil_r.
      - transitivity (firstn (length s) (s' ++ be4 (crc32 s'))); [rewrite L, firstn_app, firstn_all, Nat.sub_diag, app_nil_r; reflexivity|].
        rewrite E', firstn_app. replace (length s - length pre)%nat with 0%nat by lia. apply app_nil_r. }
    rewrite <- Es in Es'. subst s'. rewrite E in E'. apply app_same_length in E'; [|reflexivity]. destruct E' as [_ E'].
    injection E' as E'. contradiction.
Qed.

Lemma chunk_damaged c body rest : good_chunk c -> Forall is_byte (ch_type c ++ ch_data c) -> Forall is_byte body -> Forall is_byte rest ->
  one_changed (ch_type c ++ ch_data c ++ be4 (crc32 (ch_type c ++ ch_data c))) body ->
  read_chunk (be4 (N.of_nat (length (ch_data c))) ++ body ++ rest) = Panic.
Proof.
  intros [T L] Fc Fb Fr O. set (len := N.of_nat (length (ch_data c))) in *.
  destruct (read_chunk (be4 len ++ body ++ rest)) as [[c' rest']|] eqn:E; [exfalso|reflexivity].
  apply chunk_sound in E.
  2:{ apply Forall_app. split; [apply be4_bytes; change (2 ^ 32) with 4294967296; lia|apply Forall_app; split; assumption]. }
  destruct E as [[T' L'] E]. unfold chunk_bytes in E. rewrite <- app_assoc in E. apply app_same_length in E; [|reflexivity].
  destruct E as [El E]. apply be4_inj in El. unfold len in El. apply Nat2N.inj in El.
  rewrite <- !app_assoc in E. rewrite (app_assoc (ch_data c')), (app_assoc (ch_type c')) in E.
  assert (Lb : length body = (8 + length (ch_data c))%nat).
  { destruct O as (pre & x & y & post & Ea & -> & _).
    assert (Q : length (pre ++ x :: post) = (8 + length (ch_data c))%nat).
    { rewrite <- Ea, !app_length, T. cbn [length be4]. lia. }
    rewrite app_length in *. exact Q. }
  apply app_same_length in E; [|rewrite Lb, !app_length, T'; cbn [length be4]; lia]. destruct E as [-> _].
  rewrite app_assoc in O. rewrite app_assoc in O. revert O. apply crc_detects.
  - exact Fc.
  - rewrite app_assoc in Fb. apply Forall_app in Fb. apply Fb.
  - rewrite !app_length, T, T'. lia.
Qed.

Lemma chunks_panic cs s : Forall good_chunk cs -> Forall (none_of [IEND]) cs -> read_chunk s = Panic ->
  forall fuel, read_chunks fuel (flat_map chunk_bytes cs ++ s) = Panic.
Proof.
  intros G E P. induction cs as [|c cs IH]; intros [|fuel]; try reflexivity; cbn [flat_map app read_chunks].
  - rewrite P. reflexivity.
  - inversion G; inversion E as [|? ? N1 E']; subst. rewrite <- app_assoc, chunk_complete by assumption. cbn [bind].
    rewrite (none_types _ _ IEND N1) by (left; reflexivity). rewrite IH by assumption. reflexivity.
Qed.
Lemma png_damaged cs c body rest : Forall good_chunk cs -> Forall (none_of [IEND]) cs ->
  good_chunk c -> Forall is_byte (ch_type c ++ ch_data c) -> Forall is_byte body -> Forall is_byte rest ->
  one_changed (ch_type c ++ ch_data c ++ be4 (crc32 (ch_type c ++ ch_data c))) body ->
  png_decode (signature ++ flat_map chunk_bytes cs ++ be4 (N.of_nat (length (ch_data c))) ++ body ++ rest) = Panic.
Proof.
  intros G E Gc Fc Fb Fr O. unfold png_decode. rewrite strip_app, chunks_panic; try assumption; [reflexivity|].
  apply chunk_damaged; assumption.
Qed.
