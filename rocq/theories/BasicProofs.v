(** * ClipRect::new, GlyphStyle conversions, new_fr_buf, Pt ordering *)
From Coq Require Import ZArith.
From Verif Require Import FbFacts.

Lemma cliprect_new_minmax ax ay bx by_ :
  cliprect_new ax ay bx by_ =
  ClipRect (Pt (N.min ax bx) (N.min ay by_)) (Pt (N.max ax bx) (N.max ay by_)).
Proof.
  unfold cliprect_new.
  destruct (N.ltb_spec bx ax), (N.ltb_spec by_ ay); simpl; repeat f_equal; lia.
Qed.

Lemma cliprect_new_full ax ay bx by_ :
  (px (cmin (cliprect_new ax ay bx by_)) = N.min ax bx /\
   py (cmin (cliprect_new ax ay bx by_)) = N.min ay by_ /\
   px (cmax (cliprect_new ax ay bx by_)) = N.max ax bx /\
   py (cmax (cliprect_new ax ay bx by_)) = N.max ay by_) /\
  cliprect_new bx by_ ax ay = cliprect_new ax ay bx by_ /\
  cliprect_new bx ay ax by_ = cliprect_new ax ay bx by_ /\
  cliprect_new ax by_ bx ay = cliprect_new ax ay bx by_ /\
  (ax <= bx -> ay <= by_ ->
   cliprect_new ax ay bx by_ = ClipRect (Pt ax ay) (Pt bx by_)).
Proof.
  rewrite !cliprect_new_minmax; simpl.
  rewrite (N.min_comm bx ax), (N.max_comm bx ax), (N.min_comm by_ ay), (N.max_comm by_ ay).
  repeat split; intros; repeat f_equal; lia.
Qed.

Lemma style_roundtrip :
  (forall st, style_of_usize (usize_of_style st) = st) /\
  (forall s1 s2, usize_of_style s1 = usize_of_style s2 -> s1 = s2) /\
  (forall n, (forall st, n <> usize_of_style st) -> style_of_usize n = StRegular).
Proof.
  split; [intros []; reflexivity|split].
  - intros [] []; simpl; congruence.
  - intros n H. pose proof (H StSmall); pose proof (H StRegular); pose proof (H StBold).
    simpl in *. destruct n as [|p]; [congruence|]. simpl.
    destruct p as [[]|[]|]; congruence.
Qed.

Lemma pt_order :
  (forall a b, pt_eqb a b = true <-> a = b) /\
  (forall a b, pt_ltb a b = true <-> px a < px b \/ (px a = px b /\ py a < py b)) /\
  (forall a, pt_ltb a a = false) /\
  (forall a b c, pt_ltb a b = true -> pt_ltb b c = true -> pt_ltb a c = true) /\
  (forall a b, pt_ltb a b = true \/ a = b \/ pt_ltb b a = true) /\
  (forall a b, pt_ltb a b = true -> pt_ltb b a = false /\ a <> b).
Proof.
  assert (Heq : forall a b, px a = px b -> py a = py b -> a = b)
    by (intros [] []; simpl; congruence).
  assert (Hlt : forall a b, pt_ltb a b = true <-> px a < px b \/ (px a = px b /\ py a < py b))
    by (intros; unfold pt_ltb; lia).
  repeat apply conj; intros.
  - unfold pt_eqb; split.
    + intros H; apply Heq; lia.
    + intros ->; lia.
  - apply Hlt.
  - unfold pt_ltb; lia.
  - rewrite !Hlt in *; lia.
  - rewrite !Hlt. destruct (N.eq_dec (px a) (px b)); [|lia].
    destruct (N.eq_dec (py a) (py b)); [right; left; auto|lia].
  - rewrite Hlt in H. split; [unfold pt_ltb; lia|intros ->; lia].
Qed.

Lemma nth_repeat_lt {A} (v d : A) n i : (i < n)%nat -> nth i (repeat v n) d = v.
Proof.
  revert i; induction n as [|n IH]; intros i Hi; [lia|].
  destruct i; simpl; [reflexivity|apply IH; lia].
Qed.

Lemma new_fr_buf_ok : is_frbuf new_fr_buf.
Proof.
  unfold is_frbuf, new_fr_buf; split; [rewrite repeat_length; lia|].
  apply Forall_forall; intros w Hw; apply repeat_spec in Hw; subst; reflexivity.
Qed.

Lemma bits_cases i : i < 32 ->
  N.testbit 0xffff0000 i = N.testbit i 4.
Proof.
  intros H.
  assert (Hall : forallb (fun k => Bool.eqb (N.testbit 0xffff0000 (N.of_nat k)) (N.testbit (N.of_nat k) 4))
             (seq 0 32) = true) by reflexivity.
  rewrite forallb_forall in Hall.
  specialize (Hall (N.to_nat i)); rewrite Nnat.N2Nat.id in Hall.
  apply eqb_prop, Hall, in_seq; lia.
Qed.

Lemma new_fr_buf_stripes :
  is_frbuf new_fr_buf /\
  forall x y, x < STORED_WIDTH -> y < LINES -> pixel new_fr_buf x y = N.testbit x 4.
Proof.
  split; [exact new_fr_buf_ok|]. unfold STORED_WIDTH, LINES; intros x y Hx Hy.
  unfold pixel, new_fr_buf, WORDS_PER_LINE.
  rewrite nth_repeat_lt by (unfold FRAME_BUF_SIZE, WORDS_PER_LINE, LINES; lia).
  rewrite bits_cases by lia.
  change 32 with (2 ^ 5). rewrite N.mod_pow2_bits_low by lia. reflexivity.
Qed.
