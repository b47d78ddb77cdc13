(** * C84: a text can be measured by painting it, and then placed lower *)
From Coq Require Import ZArith.
From Verif Require Import PrimFacts Geom Str FontDefs Blit Spec SpecPaint SpecMove Fonts FontsOk ClearProofs LowerProofs.

(** C84: painting a text from d rows further down in the same clip shows the same pixels d rows further down, and leaves
    the cursor d rows further down, if the line of the cursor left by the first, so moved, ends in the clip *)
Theorem C84_lower : forall m1 m2 F fb1 fb2 clip c st s d fb1' c1,
  cfg_ok m1 -> cfg_ok m2 -> fontset_ok F -> is_frbuf fb1 -> is_frbuf fb2 -> paintable clip -> 36 <= clip_width clip ->
  cursor_fits m1 F c s -> cursor_fits m2 F (move_cursor 0 d c) s -> py (cmin clip) <= cy c ->
  paint_str m1 F fb1 clip c st s = Ret (fb1', c1) -> cy c1 + line_height c1 + d <= py (cmax clip) ->
  exists fb2',
    paint_str m2 F fb2 clip (move_cursor 0 d c) st s = Ret (fb2', move_cursor 0 d c1) /\
    (forall x y, x < STORED_WIDTH -> y + d < LINES ->
      xorb (pixel fb2' x (y + d)) (pixel fb2 x (y + d)) = xorb (pixel fb1' x y) (pixel fb1 x y)) /\
    (forall x y, x < STORED_WIDTH -> y < d -> y < LINES -> pixel fb2' x y = pixel fb2 x y).
Proof. exact paint_lowered. Qed.
Print Assumptions C84_lower.

(** C84: one row is not to spare: "g" of the regular font in a clip that ends right below its line, and a row lower *)
Definition low_g : str := [103].
Theorem C84_lower_refuted :
  let clip := cliprect_new 0 0 60 30 in let c := Cursor (Pt 0 0) 0 in
  forall m, cfg_ok m -> exists fb1 c1 fb2 c2,
    paint_str m blitstr_fonts blank clip c StRegular low_g = Ret (fb1, c1) /\
    cy c1 + line_height c1 + 1 = py (cmax clip) + 1 /\
    paint_str m blitstr_fonts blank clip (move_cursor 0 1 c) StRegular low_g = Ret (fb2, c2) /\
    exists x, x < STORED_WIDTH /\ pixel fb1 x 29 = true /\ pixel fb2 x 30 = false.
Proof.
  intros clip c m Hm.
  assert (K : forall m, cfg_ok m -> match paint_str m blitstr_fonts blank clip c StRegular low_g,
      paint_str m blitstr_fonts blank clip (move_cursor 0 1 c) StRegular low_g with
    | Ret (a, c1), Ret (b, _) => cy c1 + line_height c1 + 1 = py (cmax clip) + 1 /\
        existsb (fun x => pixel a x 29 && negb (pixel b x 30)) (map N.of_nat (seq 0 60)) = true
    | _, _ => False end).
  { apply all_cfgs; vm_compute; split; reflexivity. }
  specialize (K m Hm).
  destruct (paint_str m _ _ clip c _ _) as [[fb1 c1]|]; [|contradiction].
  destruct (paint_str m _ _ clip (move_cursor 0 1 c) _ _) as [[fb2 c2]|]; [|contradiction].
  destruct K as [K1 K2]. exists fb1, c1, fb2, c2. repeat (split; [reflexivity || exact K1|]).
  apply existsb_exists in K2 as (x & Hx & K2). apply in_map_iff in Hx as (k & <- & Hk). apply in_seq in Hk.
  exists (N.of_nat k). change STORED_WIDTH with 352. split; [lia|].
  destruct (pixel fb1 _ 29), (pixel fb2 _ 30); cbn in K2; try discriminate; split; reflexivity.
Qed.
Print Assumptions C84_lower_refuted.

(** A line and a line of ideographs, measured at the top of the screen, end with the screen when painted 473 rows lower *)
Example C84_case :
  let clip := cliprect_new 0 0 336 536 in
  match paint_str (Cfg true 32) blitstr_fonts blank clip (Cursor (Pt 0 0) 0) StRegular [103; 10; 0x4E00] with
  | Ret (_, c1) => cy c1 + line_height c1 + 473 = py (cmax clip) /\ cy c1 = 31 /\
      match paint_str (Cfg true 32) blitstr_fonts blank clip (Cursor (Pt 0 473) 0) StRegular [103; 10; 0x4E00] with
      | Ret (_, c2) => c2 = move_cursor 0 473 c1 | Panic => False end
  | Panic => False end.
Proof. vm_compute. repeat split. Qed.
