(** * The screenshots are compared with the frame buffer in the kernel *)
From Coq Require Import ZArith String Ascii.
From Verif Require Import Prim Str Geom Blit Demo Fonts Spec SpecWasm SpecShot ShotProofs Screenshots.
Local Open Scope N_scope.

Definition painted (r : res frbuf) : frbuf := match r with Ret fb => fb | Panic => [] end.
Definition debug_build : cfg := Cfg true 64.
Notation poem_fb := (painted (goose_poem debug_build blitstr_fonts new_fr_buf)).
Notation greeting_fb := (painted (short_greeting debug_build blitstr_fonts new_fr_buf)).

Lemma poem_shot : shot_ok poem_fb 5 5 4 goose_poem_png = true.
Proof. vm_cast_no_check (eq_refl true). Qed.
Lemma greeting_shot : shot_ok greeting_fb 7 8 8 short_greeting_png = true.
Proof. vm_cast_no_check (eq_refl true). Qed.

Lemma painted_ret r left right top shot :
  shot_ok [] left right top shot = false -> shot_ok (painted r) left right top shot = true -> r = Ret (painted r).
Proof. intros H0 H. destruct r; [reflexivity|]. cbn [painted] in H. rewrite H0 in H. discriminate H. Qed.

Lemma poem_painted : goose_poem debug_build blitstr_fonts new_fr_buf = Ret poem_fb.
Proof.
  exact (painted_ret (goose_poem debug_build blitstr_fonts new_fr_buf) 5 5 4 goose_poem_png
           ltac:(vm_cast_no_check (eq_refl false)) poem_shot).
Qed.
Lemma greeting_painted : short_greeting debug_build blitstr_fonts new_fr_buf = Ret greeting_fb.
Proof.
  exact (painted_ret (short_greeting debug_build blitstr_fonts new_fr_buf) 7 8 8 short_greeting_png
           ltac:(vm_cast_no_check (eq_refl false)) greeting_shot).
Qed.
