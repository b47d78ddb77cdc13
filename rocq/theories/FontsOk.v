(** * The five fonts are well formed *)
From Verif Require Import Prim Geom FontDefs SpecPaint FontCheck Blit.
From Verif Require Import FontSmall FontRegular FontBold FontEmoji FontHanzi Fonts.

Lemma small_ok : font_ok small_font.
Proof. apply font_okb_ok. vm_cast_no_check (eq_refl true). Qed.
Lemma regular_ok : font_ok regular_font.
Proof. apply font_okb_ok. vm_cast_no_check (eq_refl true). Qed.
Lemma bold_ok : font_ok bold_font.
Proof. apply font_okb_ok. vm_cast_no_check (eq_refl true). Qed.
Lemma emoji_ok : font_ok emoji_font.
Proof. apply font_okb_ok. vm_cast_no_check (eq_refl true). Qed.
Lemma hanzi_ok : font_ok hanzi_font.
Proof. apply font_okb_ok. vm_cast_no_check (eq_refl true). Qed.

Lemma fonts_ok : fontset_ok blitstr_fonts.
Proof.
  split.
  - intros []; [exact emoji_ok|exact bold_ok|exact regular_ok|exact small_ok|exact hanzi_ok].
  - intros []; vm_compute; discriminate.
Qed.

Lemma tallest_fonts : tallest blitstr_fonts = 32.
Proof. reflexivity. Qed.
