(** * The colours of the pixels of a PNG file, PNG 7.2 and 11.2.1 *)
From Coq Require Import ZArith.
From Verif Require Import Prim Png.

(** Samples per pixel: grey, red green blue, an index, grey and alpha, red green blue alpha *)
Definition samples_per_pixel (colour : N) : nat := nth (N.to_nat colour) [1; 0; 3; 1; 2; 0; 4]%nat 0%nat.

(** The bits of a row, the most significant one of each byte first, and a number of some of them *)
Definition high_first (b : N) : list bool := map (N.testbit b) [7; 6; 5; 4; 3; 2; 1; 0].
Definition number (bits : list bool) : N := fold_left (fun v (b : bool) => 2 * v + if b then 1 else 0) bits 0.

(** Samples follow each other without gaps, also within bytes *)
Definition samples_at (h : png_header) (row : list N) (x : nat) : list N :=
  let k := samples_per_pixel (ph_colour h) in
  let d := N.to_nat (ph_depth h) in
  map (fun j => number (firstn d (skipn ((x * k + j) * d) (flat_map high_first row)))) (seq 0 k).

(** The colour of a pixel with these samples: red, green, blue and alpha from 0 to 255 *)
Inductive shown_as (p : png) : list N -> N * N * N * N -> Prop :=
| Grey v g : ph_colour (p_header p) = 0 -> g * (2 ^ ph_depth (p_header p) - 1) = 255 * v ->
    shown_as p [v] (g, g, g, 255)
| True_colour r g b : ph_colour (p_header p) = 2 -> shown_as p [r; g; b] (r, g, b, 255)
| Indexed i r g b : ph_colour (p_header p) = 3 -> nth_error (p_palette p) (N.to_nat i) = Some (r, g, b) ->
    shown_as p [i] (r, g, b, 255)
| Not_indexed i : ph_colour (p_header p) = 3 -> nth_error (p_palette p) (N.to_nat i) = None ->
    shown_as p [i] (0, 0, 0, 255)
| Grey_alpha v a : ph_colour (p_header p) = 4 -> shown_as p [v; a] (v, v, v, a)
| True_colour_alpha r g b a : ph_colour (p_header p) = 6 -> shown_as p [r; g; b; a] (r, g, b, a).
