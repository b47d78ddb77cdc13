(** * What a screenshot of the demo page shows *)
From Coq Require Import String Ascii.
From Verif Require Import Prim Geom Spec SpecWasm.
Local Open Scope N_scope.

(** A screenshot is a list of rows, a row a string with a character per pixel: '#' for
    ink, '.' for the screen, '+' for the page around it *)
Definition shot_pixel (shot : list string) (x y : nat) : option ascii :=
  match nth_error shot y with Some row => String.get x row | None => None end.

(** The page with the top left corner of the canvas at (left, top): the canvas has the
    colour of the screen behind it, so a transparent pixel looks like the screen *)
Definition page_pixel (img : list N) (left top x y : nat) : ascii :=
  if (Nat.leb left x && Nat.ltb x (left + 336) && Nat.leb top y && Nat.ltb y (top + 536))%bool then
    if snd (canvas_pixel img (N.of_nat (x - left)) (N.of_nat (y - top))) =? 0 then "."%char else "#"%char
  else "+"%char.
