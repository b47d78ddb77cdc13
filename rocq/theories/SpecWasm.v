(** * Specification of the canvas of the web demo *)
From Verif Require Import Prim Geom Spec.

(** Pixels of the canvas *)
Definition IMG : N := 336 * 536.

(** An image of the canvas: four bytes per pixel *)
Definition is_image (img : list N) : Prop := N.of_nat (length img) = 4 * IMG.

(** Red, green, blue and alpha of pixel p, counting pixels in reading order *)
Definition quad (img : list N) (p : N) : N * N * N * N :=
  (nth (N.to_nat (4 * p)) img 0, nth (N.to_nat (4 * p + 1)) img 0,
   nth (N.to_nat (4 * p + 2)) img 0, nth (N.to_nat (4 * p + 3)) img 0).
Definition canvas_pixel (img : list N) (x y : N) : N * N * N * N := quad img (y * 336 + x).

(** Dark grey, transparent for a set pixel, opaque for a clear one *)
Definition right_pixel (fb : frbuf) (x y : N) : N * N * N * N :=
  (0x33, 0x33, 0x33, if pixel fb x y then 0 else 0xff).
