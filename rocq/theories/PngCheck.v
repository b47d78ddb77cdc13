(** * The bytes of the PNG files decode to what Sheet*.v and Screenshots.v say *)
From Coq Require Import ZArith String.
From Verif Require Import Prim FontDefs Sheets Screenshots PngFiles PngSheets.

Lemma small_sheet_ok : sheet_okb (file_bytes small_file) (sheet_width Small) (sheet_rows Small) = true.
Proof. vm_cast_no_check (eq_refl true). Qed.
Lemma regular_sheet_ok : sheet_okb (file_bytes regular_file) (sheet_width Regular) (sheet_rows Regular) = true.
Proof. vm_cast_no_check (eq_refl true). Qed.
Lemma bold_sheet_ok : sheet_okb (file_bytes bold_file) (sheet_width Bold) (sheet_rows Bold) = true.
Proof. vm_cast_no_check (eq_refl true). Qed.
Lemma greeting_file_ok : shot_fileb (file_bytes greeting_file) 351 short_greeting_png = true.
Proof. vm_cast_no_check (eq_refl true). Qed.
Lemma poem_file_ok : shot_fileb (file_bytes poem_file) 346 goose_poem_png = true.
Proof. vm_cast_no_check (eq_refl true). Qed.
