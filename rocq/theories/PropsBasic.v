(** * Properties C01, C02, C46, C47 *)
From Verif Require Import Prim Geom Spec BasicProofs.

(** C01: ClipRect::new(ax, ay, bx, by) *)
Theorem C01_cliprect_new : forall ax ay bx by_,
  (px (cmin (cliprect_new ax ay bx by_)) = N.min ax bx /\
   py (cmin (cliprect_new ax ay bx by_)) = N.min ay by_ /\
   px (cmax (cliprect_new ax ay bx by_)) = N.max ax bx /\
   py (cmax (cliprect_new ax ay bx by_)) = N.max ay by_) /\
  cliprect_new bx by_ ax ay = cliprect_new ax ay bx by_ /\
  cliprect_new bx ay ax by_ = cliprect_new ax ay bx by_ /\
  cliprect_new ax by_ bx ay = cliprect_new ax ay bx by_ /\
  (ax <= bx -> ay <= by_ ->
   cliprect_new ax ay bx by_ = ClipRect (Pt ax ay) (Pt bx by_)).
Proof. exact cliprect_new_full. Qed.
Print Assumptions C01_cliprect_new.

Example C01_case : cliprect_new 8 2 1 9 = ClipRect (Pt 1 2) (Pt 8 9).
Proof. reflexivity. Qed.

(** C02: GlyphStyle::from and into *)
Theorem C02_style_roundtrip :
  (forall st, style_of_usize (usize_of_style st) = st) /\
  (forall s1 s2, usize_of_style s1 = usize_of_style s2 -> s1 = s2) /\
  (forall n, (forall st, n <> usize_of_style st) -> style_of_usize n = StRegular).
Proof. exact style_roundtrip. Qed.
Print Assumptions C02_style_roundtrip.

Example C02_case : forall st, 255 <> usize_of_style st.
Proof. intros []; discriminate. Qed.

(** C46: the stripes of new_fr_buf() *)
Theorem C46_new_fr_buf :
  is_frbuf new_fr_buf /\
  forall x y, x < STORED_WIDTH -> y < LINES -> pixel new_fr_buf x y = N.testbit x 4.
Proof. exact new_fr_buf_stripes. Qed.
Print Assumptions C46_new_fr_buf.

Example C46_case : pixel new_fr_buf 15 535 = false /\ pixel new_fr_buf 16 0 = true.
Proof. split; vm_compute; reflexivity. Qed.

(** C47: Pt comparison *)
Theorem C47_pt_order :
  (forall a b, pt_eqb a b = true <-> a = b) /\
  (forall a b, pt_ltb a b = true <-> px a < px b \/ (px a = px b /\ py a < py b)) /\
  (forall a, pt_ltb a a = false) /\
  (forall a b c, pt_ltb a b = true -> pt_ltb b c = true -> pt_ltb a c = true) /\
  (forall a b, pt_ltb a b = true \/ a = b \/ pt_ltb b a = true) /\
  (forall a b, pt_ltb a b = true -> pt_ltb b a = false /\ a <> b).
Proof. exact pt_order. Qed.
Print Assumptions C47_pt_order.

Example C47_case : pt_ltb (Pt 1 9) (Pt 2 0) = true /\ pt_ltb (Pt 1 2) (Pt 1 3) = true.
Proof. split; reflexivity. Qed.
