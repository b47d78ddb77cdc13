(** * Proofs: the pixels of the model are those of the PNG format *)
From Coq Require Import ZArith.
From Verif Require Import Prim FontDefs Codegen Png SpecDeflate SpecPng SpecPixel PngProofs.

(** ** Bits *)
Lemma flat_skip {A} (f : N -> list A) : forall l i k, (forall a, length (f a) = 8%nat) -> (k <= 8)%nat -> (i < length l)%nat ->
  skipn (8 * i + k) (flat_map f l) = skipn k (f (nth i l 0)) ++ flat_map f (skipn (S i) l).
Proof.
  induction l as [|a l IH]; intros i k F Lk Li; cbn [length] in Li; [lia|]. cbn [flat_map]. rewrite skipn_app, F. destruct i as [|i].
  - cbn [nth]. rewrite Nat.mul_0_r, Nat.add_0_l. replace (k - 8)%nat with 0%nat by lia. reflexivity.
  - rewrite (skipn_all2 (f a)) by (rewrite F; lia). replace (8 * S i + k - 8)%nat with (8 * i + k)%nat by lia.
    cbn [app nth skipn]. rewrite (IH i k F Lk) by lia. reflexivity.
Qed.

Definition all_bytes : list N := map N.of_nat (seq 0 256).
Lemma in_bytes b : b < 256 -> In b all_bytes.
Proof. intros L. unfold all_bytes. apply in_map_iff. exists (N.to_nat b). split; [apply N2Nat.id|apply in_seq; lia]. Qed.

Definition parts_okb : bool :=
  forallb (fun b => forallb (fun '(d, r) => number (firstn (N.to_nat d) (skipn (N.to_nat r) (high_first b)))
                                           =? N.shiftr b (8 - d - r) mod 2 ^ d)
    [(1, 0); (1, 1); (1, 2); (1, 3); (1, 4); (1, 5); (1, 6); (1, 7); (2, 0); (2, 2); (2, 4); (2, 6); (4, 0); (4, 4); (8, 0)]) all_bytes.
Lemma parts_ok : parts_okb = true. Proof. vm_compute. reflexivity. Qed.
Lemma part b d r : b < 256 -> In d [1; 2; 4; 8] -> r < 8 -> r mod d = 0 ->
  number (firstn (N.to_nat d) (skipn (N.to_nat r) (high_first b))) = N.shiftr b (8 - d - r) mod 2 ^ d.
Proof.
  intros Lb Id Lr Mr. pose proof parts_ok as P. unfold parts_okb in P. rewrite forallb_forall in P. specialize (P b (in_bytes b Lb)).
  rewrite forallb_forall in P. specialize (P (d, r)). apply N.eqb_eq, P. clear P Lb.
  assert (R : In r [0; 1; 2; 3; 4; 5; 6; 7]).
  { replace r with (N.of_nat (N.to_nat r)) by apply N2Nat.id. assert (L : (N.to_nat r < 8)%nat) by lia. revert L. generalize (N.to_nat r).
    intros n L. do 8 (destruct n as [|n]; [cbn; tauto|]). lia. }
  cbn [In] in Id, R |- *. destruct Id as [<-|[<-|[<-|[<-|[]]]]]; destruct R as [<-|[<-|[<-|[<-|[<-|[<-|[<-|[<-|[]]]]]]]]]; try discriminate Mr; tauto.
Qed.

(** d bits inside of a byte of the row *)
Lemma bits_at d row i r : In d [1; 2; 4; 8] -> r < 8 -> r mod d = 0 -> Forall is_byte row -> (i < length row)%nat ->
  number (firstn (N.to_nat d) (skipn (8 * i + N.to_nat r) (flat_map high_first row)))
  = N.shiftr (nth i row 0) (8 - d - r) mod 2 ^ d.
Proof.
  intros Id Lr Mr Fb Li. rewrite flat_skip by (reflexivity || lia).
  assert (Ld : d + r <= 8).
  { cbn [In] in Id. pose proof (N.div_mod r d) as E. destruct Id as [<-|[<-|[<-|[<-|[]]]]]; cbn in *; lia. }
  rewrite firstn_app, skipn_length. change (length (high_first (nth i row 0))) with 8%nat.
  replace (N.to_nat d - (8 - N.to_nat r))%nat with 0%nat by lia. cbn [firstn]. rewrite app_nil_r.
  apply part; try assumption. rewrite Forall_forall in Fb. apply Fb, nth_In, Li.
Qed.

(** ** Rows *)
Lemma concat_shape n b row : row_shape n b row -> length (concat row) = (n * b)%nat /\ Forall is_byte (concat row).
Proof.
  intros [L F]. revert n L. induction row as [|px row IH]; intros n L; cbn [length] in L; subst n; [split; [reflexivity|constructor]|].
  inversion F as [|? ? [Lp Fp] F']; subst. destruct (IH F' _ eq_refl) as [L' Fb]. cbn [concat]. split.
  - rewrite app_length, L'. lia.
  - apply Forall_app. split; assumption.
Qed.
Lemma concat_nth b : forall row x j, Forall (pixel_shape b) row -> (j < b)%nat -> (x < length row)%nat ->
  nth (x * b + j) (concat row) 0 = nth j (nth x row []) 0.
Proof.
  induction row as [|px row IH]; intros x j F Lj Lx; cbn [length] in Lx; [lia|]. inversion F as [|? ? [Lp Fp] F']; subst. cbn [concat].
  destruct x as [|x].
  - cbn [nth]. rewrite Nat.mul_0_l, Nat.add_0_l. rewrite app_nth1 by lia. reflexivity.
  - rewrite app_nth2 by lia. cbn [nth]. replace (S x * length px + j - length px)%nat with (x * length px + j)%nat by lia.
    apply IH; [exact F'|exact Lj|lia].
Qed.
Lemma map_nth_seq (l : list N) : map (fun j => nth j l 0) (seq 0 (length l)) = l.
Proof.
  induction l as [|a l IH]; [reflexivity|]. cbn [length seq map nth]. f_equal. rewrite <- seq_shift, map_map. exact IH.
Qed.

Lemma shape8 h : good_header h -> ph_depth h = 8 -> pixel_bytes h = samples_per_pixel (ph_colour h) /\ row_pixels h = N.to_nat (ph_width h).
Proof.
  intros (_ & _ & C) D. unfold pixel_bytes, row_pixels. rewrite D. split; [|reflexivity].
  destruct C as [[C _]|[C _]]; cbn [In] in C; repeat (destruct C as [<-|C]; [reflexivity|]); contradiction.
Qed.
Lemma shape_small h : good_header h -> ph_depth h <> 8 ->
  In (ph_depth h) [1; 2; 4] /\ In (ph_colour h) [0; 3] /\ samples_per_pixel (ph_colour h) = 1%nat /\
  pixel_bytes h = 1%nat /\ row_pixels h = N.to_nat ((ph_width h * ph_depth h + 7) / 8).
Proof.
  intros (_ & _ & C) D. destruct C as [[C Dd]|[_ C]]; [|contradiction].
  assert (Id : In (ph_depth h) [1; 2; 4]) by (cbn [In] in *; intuition auto; congruence).
  split; [exact Id|]. split; [exact C|]. unfold pixel_bytes, row_pixels. rewrite (proj2 (N.eqb_neq _ _) D).
  cbn [In] in Id, C. destruct C as [<-|[<-|[]]]; destruct Id as [<-|[<-|[<-|[]]]]; repeat split; reflexivity.
Qed.

(** Rows are as long as their pixels need, rounded up to bytes *)
Lemma row_length h row : good_header h -> row_shape (row_pixels h) (pixel_bytes h) row ->
  N.of_nat (length (concat row)) = (ph_width h * N.of_nat (samples_per_pixel (ph_colour h)) * ph_depth h + 7) / 8.
Proof.
  intros G Sh. destruct (concat_shape _ _ _ Sh) as [L _]. rewrite L. destruct (N.eq_dec (ph_depth h) 8) as [D|D].
  - destruct (shape8 h G D) as [-> ->]. rewrite D. rewrite Nat2N.inj_mul, N2Nat.id.
    set (a := ph_width h * _). replace (a * 8 + 7) with (7 + a * 8) by lia. rewrite N.div_add by discriminate. reflexivity.
  - destruct (shape_small h G D) as (_ & _ & -> & -> & ->). rewrite Nat.mul_1_r, N2Nat.id, N.mul_1_r. reflexivity.
Qed.

Lemma sample_is h row x : good_header h -> row_shape (row_pixels h) (pixel_bytes h) row -> (x < N.to_nat (ph_width h))%nat ->
  sample h row x = samples_at h (concat row) x.
Proof.
  intros G Sh Lx. destruct (concat_shape _ _ _ Sh) as [L Fb]. destruct (N.eq_dec (ph_depth h) 8) as [D|D].
  - destruct (shape8 h G D) as [Eb En]. rewrite En, Eb in *. unfold sample, samples_at. rewrite D. change (8 =? 8) with true. cbv iota zeta.
    set (k := samples_per_pixel (ph_colour h)) in *. destruct Sh as [Lr Fr].
    assert (Lp : length (nth x row []) = k).
    { rewrite Forall_forall in Fr. apply (Fr (nth x row [])), nth_In. lia. }
    rewrite <- (map_nth_seq (nth x row [])) at 1. rewrite Lp. apply map_ext_in. intros j Ij. apply in_seq in Ij.
    assert (Ls : (x * k + j < length (concat row))%nat) by (rewrite L; nia).
    replace ((x * k + j) * N.to_nat 8)%nat with (8 * (x * k + j) + N.to_nat 0)%nat by lia.
    rewrite bits_at; [|cbn; tauto|reflexivity|reflexivity|exact Fb|exact Ls].
    rewrite (concat_nth k) by (assumption || lia). cbn [N.sub]. change (8 - 8 - 0) with 0. rewrite N.shiftr_0_r. symmetry. apply N.mod_small.
    change (2 ^ 8) with 256. rewrite <- (concat_nth k) by (assumption || lia).
    rewrite Forall_forall in Fb. apply Fb, nth_In, Ls.
  - destruct (shape_small h G D) as (Id & _ & Ek & Eb & En). unfold sample, samples_at. rewrite Ek, (proj2 (N.eqb_neq _ _) D). cbv zeta.
    cbn [seq map]. rewrite Nat.mul_1_r, Nat.add_0_r. set (d := ph_depth h) in *.
    assert (Dm : (x * N.to_nat d)%nat = (8 * N.to_nat (N.of_nat x * d / 8) + N.to_nat (N.of_nat x * d mod 8))%nat).
    { apply Nat2N.inj. rewrite Nat2N.inj_mul, Nat2N.inj_add, Nat2N.inj_mul, !N2Nat.id. change (N.of_nat 8) with 8. apply N.div_mod. discriminate. }
    set (i := N.to_nat (N.of_nat x * d / 8)) in *. rewrite Eb in *.
    assert (Li : (i < length row)%nat).
    { destruct Sh as [-> _]. rewrite En. unfold i.
      assert (N.of_nat x * d / 8 < (ph_width h * d + 7) / 8); [|lia].
      assert (Hx : N.of_nat x + 1 <= ph_width h) by lia.
      assert (Hd : d = 1 \/ d = 2 \/ d = 4) by (cbn [In] in Id; intuition).
      pose proof (N.div_mod (N.of_nat x * d) 8 ltac:(discriminate)) as E1. pose proof (N.mod_lt (N.of_nat x * d) 8 ltac:(discriminate)) as M1.
      pose proof (N.div_mod (ph_width h * d + 7) 8 ltac:(discriminate)) as E2. pose proof (N.mod_lt (ph_width h * d + 7) 8 ltac:(discriminate)) as M2.
      destruct Hd as [-> | [-> | ->]]; lia. }
    assert (Lc : (i < length (concat row))%nat) by (rewrite L, Nat.mul_1_r; destruct Sh as [<- _]; exact Li).
    rewrite Dm, bits_at; [|cbn [In] in *; tauto|apply N.mod_lt; discriminate| |exact Fb|exact Lc].
    2:{ assert (Hd : d = 1 \/ d = 2 \/ d = 4) by (cbn [In] in Id; intuition).
        destruct Hd as [E | [E | E]]; rewrite E.
        - apply N.mod_1_r.
        - rewrite (N.mul_comm (N.of_nat x)). change 8 with (2 * 4). rewrite N.mul_mod_distr_l by discriminate. rewrite N.mul_comm. apply N.mod_mul. discriminate.
        - rewrite (N.mul_comm (N.of_nat x)). change 8 with (4 * 2). rewrite N.mul_mod_distr_l by discriminate. rewrite N.mul_comm. apply N.mod_mul. discriminate. }
    destruct Sh as [Lr Fr].
    assert (Ep : exists b, nth i row [] = [b]).
    { rewrite Forall_forall in Fr. destruct (Fr (nth i row []) (nth_In _ _ Li)) as [Lp _].
      destruct (nth i row []) as [|b [|]]; try discriminate Lp. exists b. reflexivity. }
    destruct Ep as [b Ep]. pose proof (concat_nth 1 row i 0 Fr ltac:(lia) Li) as Ec. rewrite Nat.mul_1_r, Nat.add_0_r, Ep in Ec. cbn [nth] in Ec.
    rewrite Ep, Ec. reflexivity.
Qed.

(** ** Colours *)
Ltac per_pixel := match goal with |- context [samples_per_pixel ?c] =>
  let v := eval compute in (samples_per_pixel c) in change (samples_per_pixel c) with v; cbn [seq map] end.
Lemma colour_is p row x : good_header (p_header p) -> row_shape (row_pixels (p_header p)) (pixel_bytes (p_header p)) row ->
  (x < N.to_nat (ph_width (p_header p)))%nat ->
  shown_as p (samples_at (p_header p) (concat row) x) (colour_of p (sample (p_header p) row x)).
Proof.
  intros G Sh Lx. rewrite (sample_is _ row x G Sh Lx). unfold samples_at. cbv zeta. set (h := p_header p) in *.
  pose proof G as (_ & _ & C). unfold colour_of. fold h.
  destruct C as [[C D]|[C D]]; cbn [In] in C.
  - destruct C as [C|[C|[]]]; rewrite <- C; per_pixel.
    + apply Grey; [symmetry; exact C|]. fold h. assert (K : 255 / (2 ^ ph_depth h - 1) * (2 ^ ph_depth h - 1) = 255)
        by (cbn [In] in D; destruct D as [<-|[<-|[<-|[<-|[]]]]]; reflexivity).
      rewrite <- N.mul_assoc, K. apply N.mul_comm.
    + set (i := number _). destruct (nth_error (p_palette p) (N.to_nat i)) as [[[r g] b]|] eqn:E.
      * rewrite (nth_error_nth _ _ _ E). apply Indexed; [symmetry; exact C|exact E].
      * rewrite nth_overflow by (apply nth_error_None; exact E). apply Not_indexed; [symmetry; exact C|exact E].
  - destruct C as [C|[C|[C|[]]]]; rewrite <- C; per_pixel.
    + apply True_colour. symmetry. exact C.
    + apply Grey_alpha. symmetry. exact C.
    + apply True_colour_alpha. symmetry. exact C.
Qed.

Lemma rows_nth h n b rows y : rows_shape h n b rows -> (y < h)%nat -> row_shape n b (nth y rows []).
Proof. intros [L F] Ly. rewrite Forall_forall in F. apply F, nth_In. lia. Qed.

Lemma pixels_shown file p : Forall (fun b => b < 256) file -> png_decode file = Ret p ->
  forall x y, (x < N.to_nat (ph_width (p_header p)))%nat -> (y < N.to_nat (ph_height (p_header p)))%nat ->
  let row := concat (nth y (p_rows p) []) in
  N.of_nat (length row) = (ph_width (p_header p) * N.of_nat (samples_per_pixel (ph_colour (p_header p))) * ph_depth (p_header p) + 7) / 8 /\
  shown_as p (samples_at (p_header p) row x) (png_colour p x y).
Proof.
  intros Fb E x y Lx Ly. cbv zeta. apply (proj1 (png_iff file p Fb)) in E.
  destruct E as (pal & before & idats & after & junk & raw & filters & _ & _ & G & _ & _ & _ & _ & _ & _ & _ & Sh & _).
  pose proof (rows_nth _ _ _ _ y Sh Ly) as R. split.
  - apply row_length; assumption.
  - apply colour_is; assumption.
Qed.

Lemma shown_unique p s c c' : good_header (p_header p) -> shown_as p s c -> shown_as p s c' -> c = c'.
Proof.
  intros G H H'. destruct H; inversion H'; subst; try congruence.
  assert (K : 2 ^ ph_depth (p_header p) - 1 <> 0).
  { destruct G as (_ & _ & [[_ D]|[_ D]]); [|rewrite D; discriminate]. cbn [In] in D. destruct D as [<-|[<-|[<-|[<-|[]]]]]; discriminate. }
  assert (g = g0) by nia. subst. reflexivity.
Qed.

(** The generator's test for ink *)
Lemma red_zero r g b a : red_of (r, g, b, a) = 0 <-> r = 0 \/ a = 0.
Proof.
  unfold red_of. split.
  - intros E. apply N.div_small_iff in E; [|discriminate]. nia.
  - intros [-> | ->]; [|rewrite N.mul_0_r]; reflexivity.
Qed.
Lemma ink_shown file p : Forall (fun b => b < 256) file -> png_decode file = Ret p ->
  forall x y, (x < N.to_nat (ph_width (p_header p)))%nat -> (y < N.to_nat (ph_height (p_header p)))%nat ->
  (img_red (png_image p) (Z.of_nat x) (Z.of_nat y) = 0 <->
   exists r g b a, shown_as p (samples_at (p_header p) (concat (nth y (p_rows p) [])) x) (r, g, b, a) /\ (r = 0 \/ a = 0)).
Proof.
  intros Fb E x y Lx Ly. destruct (pixels_shown file p Fb E x y Lx Ly) as [_ Sh].
  apply (proj1 (png_iff file p Fb)) in E.
  destruct E as (pal & before & idats & after & junk & raw & filters & _ & _ & G & _).
  cbn [png_image img_red].
  destruct (Z.leb_spec 0 (Z.of_nat x)) as [_|]; [|lia]. destruct (Z.ltb_spec (Z.of_nat x) (Z.of_N (ph_width (p_header p)))) as [_|]; [|lia].
  destruct (Z.leb_spec 0 (Z.of_nat y)) as [_|]; [|lia]. destruct (Z.ltb_spec (Z.of_nat y) (Z.of_N (ph_height (p_header p)))) as [_|]; [|lia].
  cbn [andb]. rewrite !Nat2Z.id. destruct (png_colour p x y) as [[[r g] b] a] eqn:Ec. rewrite red_zero. split.
  - intros O. exists r, g, b, a. split; assumption.
  - intros (r' & g' & b' & a' & Sh' & O). pose proof (shown_unique _ _ _ _ G Sh Sh') as Eq. injection Eq as -> -> -> ->. exact O.
Qed.
